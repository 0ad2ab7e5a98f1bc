(** Property theorems C126: calls on events found by their ids. *)
From Verif Require Import Base PyDate Recurrent CalTime Event Storage ICal System.
From Verif Require Import EventProofs SystemProofs StoreProofs ShuffleProofs ShuffleSystem PropEvent PropSystem PropCalendar PropShuffle.
From Coq Require Import Sorting.Permutation.

(** ** Calls by id *)
(** what a user does to the event with some id: manager.createEvent(id, ...),
    manager.deleteEvent(manager.getEvent(id)) and the methods of
    manager.getEvent(id); cal.py 139-155, 87-105, 413-453 *)
Inductive deed :=
| DCreate (sp : spec)
| DDelete
| DInvite (l : list attendee)
| DStatus (a : attendee) (st : option string)
| DRole (a : attendee) (ro : string)
| DAdjust
| DAssign (sp : spec)
| DSpecify (sp : spec).

(** the call on the object that was found, cal.py 148-150, 87-105, 413-453 *)
Definition deed_op (r : nat) (d : deed) : option op :=
  match d with
  | DCreate _ => None
  | DDelete => Some (ODelete r)
  | DInvite l => Some (OInvite r l)
  | DStatus a st => Some (OSetStatus r a st)
  | DRole a ro => Some (OSetRole r a ro)
  | DAdjust => Some (OAdjust r)
  | DAssign sp => Some (OAssign r sp)
  | DSpecify sp => Some (OSpecify r sp)
  end.

(** look the event up, then call; cal.py 139-155 and 284-285 *)
Definition do_by_id (cf : config) (s : system) (c : string * deed) : smut unit :=
  match snd c with
  | DCreate sp => step cf s (OCreate (Some (fst c)) sp 0)
  | d => sbind (slift s (get_event s (fst c))) (fun s r =>
         match deed_op r d with Some o => step cf s o | None => sret s tt end)
  end.

(** one call after the other; what each announced and how it ended *)
Fixpoint do_all (cf : config) (s : system) (l : list (string * deed)) : system * list (string * deed * list notification * res unit) :=
  match l with
  | [] => (s, [])
  | c :: l => let '(s', n, r) := do_by_id cf s c in
              let '(s'', h) := do_all cf s' l in (s'', (c, n, r) :: h)
  end.

(** ** Specification: one event on its own *)
(** what is stored under an id *)
Definition shown (s : system) (u : string) : option event :=
  match get_event s u with Ok r => Some (obj s r) | _ => None end.

(** one id on its own: the event under it, if any *)
Definition alone (u : string) (x : option event) (d : deed) : option event * list notification * res unit :=
  let change (f : event -> mut) :=
    match x with
    | Some e => let '(e', n, r) := f e in (Some e', n, r)
    | None => (None, [], Raise KeyError)
    end in
  match d with
  | DCreate sp => match new_event u sp with
                  | Ok e => (Some e, [NCreated u], Ok tt)
                  | Raise y => (x, [], Raise y)
                  | OutOfFuel => (x, [], OutOfFuel)
                  end
  | DDelete => match x with Some _ => (None, [NDeleted u], Ok tt) | None => (None, [], Raise KeyError) end
  | DInvite l => change (fun e => invite e l)
  | DStatus a st => change (fun e => set_status e a st)
  | DRole a ro => change (fun e => set_role e a ro)
  | DAdjust => change (fun e => (allday_adjust e, [], Ok tt))
  | DAssign sp => change (fun e => (set_attrs sp e, [], Ok tt))
  | DSpecify sp => change (set_on_object sp)
  end.

Fixpoint all_alone (u : string) (x : option event) (l : list deed) : option event * list (list notification * res unit) :=
  match l with
  | [] => (x, [])
  | d :: l => let '(x', n, r) := alone u x d in
              let '(x'', h) := all_alone u x' l in (x'', (n, r) :: h)
  end.

(** the deeds on one id, and what came of them *)
Definition deeds_on (u : string) (l : list (string * deed)) : list deed :=
  map snd (filter (fun c => String.eqb (fst c) u) l).
Definition fate_of (u : string) (h : list (string * deed * list notification * res unit)) : list (list notification * res unit) :=
  map (fun x => (snd (fst x), snd x)) (filter (fun x => String.eqb (fst (fst (fst x))) u) h).

(** ** Proofs *)
Lemma do_reachable cf s c : reachable cf s -> reachable cf (sst (do_by_id cf s c)).
Proof.
  intros R. assert (S : forall o, reachable cf (sst (step cf s o))).
  { intros o. destruct R as [h H]. destruct (step cf s o) as [[s' n] r] eqn:E. eexists. econstructor; eassumption. }
  destruct c as [u d]. unfold do_by_id. cbn [fst snd].
  destruct d; try apply S; unfold slift; destruct (get_event s u); cbn [sbind deed_op]; try exact R;
    unfold sbind; match goal with |- context [step cf s ?o] => specialize (S o); destruct (step cf s o) as [[s' n] r] end; exact S.
Qed.

Lemma on_event_shown s r u f v : store_inv s -> get_event s u = Ok r ->
  shown (sst (on_event s r f)) v = if String.eqb v u then Some (fst (fst (f (obj s r)))) else shown s v.
Proof.
  intros [N I] G. unfold on_event. destruct (f (obj s r)) as [[e n] x]. unfold sst, shown, get_event, obj in *. cbn [fst sys_store sys_heap with_heap].
  destruct (dget (sys_store s) u) as [k|] eqn:D; [|discriminate]. injection G as ->. destruct (I u r D) as (L & U & _).
  destruct (String.eqb_spec v u) as [->|NE].
  - rewrite D. f_equal. rewrite replace_nth_get, Nat.eqb_refl. apply Nat.ltb_lt in L. now rewrite L.
  - destruct (dget (sys_store s) v) as [k|] eqn:D2; [|reflexivity]. f_equal. rewrite replace_nth_get. destruct (Nat.eqb_spec k r) as [->|]; [|reflexivity].
    exfalso. destruct (I v r D2) as (_ & U2 & _). unfold obj in *. congruence.
Qed.


Lemma on_event_alone s r u f : store_inv s -> get_event s u = Ok r ->
  let m := on_event s r f in let a := let '(e', n, x) := f (obj s r) in (Some e', n, x) in
  shown (sst m) u = fst (fst a) /\ snt m = snd (fst a) /\ srs m = snd a /\ forall v, v <> u -> shown (sst m) v = shown s v.
Proof.
  intros SI G. cbv zeta. split; [|split; [|split]].
  - rewrite (on_event_shown s r u f u SI G), String.eqb_refl. now destruct (f (obj s r)) as [[e n] x].
  - unfold on_event. now destruct (f (obj s r)) as [[e n] x].
  - unfold on_event. now destruct (f (obj s r)) as [[e n] x].
  - intros v NE. rewrite (on_event_shown s r u f v SI G). destruct (String.eqb_spec v u); [contradiction|reflexivity].
Qed.

Lemma slift_ok {A B} (s : system) (a : A) (f : system -> A -> smut B) : sbind (slift s (Ok a)) f = f s a.
Proof. unfold slift, sbind. now destruct (f s a) as [[s' n] r]. Qed.

Lemma create_alone cf s u sp : store_inv s ->
  let m := step cf s (OCreate (Some u) sp 0) in let a := alone u (shown s u) (DCreate sp) in
  shown (sst m) u = fst (fst a) /\ snt m = snd (fst a) /\ srs m = snd a
  /\ forall v, v <> u -> shown (sst m) v = shown s v.
Proof.
  intros [N I]. cbv zeta. cbn [step alone]. unfold create_event. destruct (new_event u sp) as [e|x|]; cbn [drop sfail];
    unfold sst, snt, srs; cbn [fst snd]; auto.
  unfold shown, get_event, obj. cbn [sys_store sys_heap]. rewrite dget_dset, String.eqb_refl.
  split; [rewrite app_nth2, Nat.sub_diag by lia; reflexivity|]. split; [reflexivity|]. split; [reflexivity|].
  intros v NE. rewrite dget_dset. destruct (String.eqb_spec v u); [contradiction|]. destruct (dget (sys_store s) v) as [k|] eqn:D; [|reflexivity].
  destruct (I v k D) as (L & _). now rewrite app_nth1.
Qed.

(** A call by id does what it would do if there were no other event, and changes no other event. *)
Theorem C126_alone cf s u d : reachable cf s ->
  let m := do_by_id cf s (u, d) in let a := alone u (shown s u) d in
  shown (sst m) u = fst (fst a) /\ snt m = snd (fst a) /\ srs m = snd a
  /\ forall v, v <> u -> shown (sst m) v = shown s v.
Proof.
  intros R. pose proof (reachable_store cf s R) as SI. cbv zeta. unfold do_by_id. cbn [fst snd].
  destruct (get_event s u) as [r|x|] eqn:G; [| |unfold get_event in G; destruct (dget (sys_store s) u); discriminate].
  - assert (X : shown s u = Some (obj s r)) by (unfold shown; now rewrite G).
    destruct d; rewrite ?slift_ok; try (now apply create_alone); cbn [deed_op step alone]; rewrite X; try (now apply on_event_alone).
    destruct SI as [N I]. unfold get_event in G. destruct (dget (sys_store s) u) as [k|] eqn:D; [|discriminate]. injection G as ->.
    destruct (I u r D) as (L & U & _). unfold delete_event, ddel. rewrite U, D. unfold sst, snt, srs, shown, get_event, obj. cbn [fst snd sys_store sys_heap with_store].
    split; [now rewrite dget_drem, String.eqb_refl|]. split; [reflexivity|]. split; [reflexivity|].
    intros v NE. rewrite dget_drem by exact N. destruct (String.eqb_spec v u); [contradiction|reflexivity].
  - assert (X : shown s u = None) by (unfold shown; now rewrite G).
    assert (x = KeyError) as -> by (unfold get_event in G; destruct (dget (sys_store s) u); congruence).
    destruct d; try (now apply create_alone); cbn [slift sbind alone]; unfold slift, sbind, sst, snt, srs; cbn [fst snd]; rewrite X; auto.
Qed.
Print Assumptions C126_alone.

Lemma deeds_cons u c l : deeds_on u (c :: l) = if String.eqb (fst c) u then snd c :: deeds_on u l else deeds_on u l.
Proof. unfold deeds_on. cbn [filter]. now destruct (String.eqb (fst c) u). Qed.

(** Any sequence of such calls: what becomes of an event, and how each call on it ends, depends on the
    calls on that event alone, however they are interleaved with calls on others. *)
Theorem C126_each cf u l : forall s, reachable cf s ->
  let m := do_all cf s l in let a := all_alone u (shown s u) (deeds_on u l) in
  shown (fst m) u = fst a /\ fate_of u (snd m) = snd a.
Proof.
  induction l as [|[v d] l IH]; intros s R; cbv zeta; [split; reflexivity|]. cbn [do_all].
  pose proof (C126_alone cf s v d R) as A. pose proof (do_reachable cf s (v, d) R) as R'. cbv zeta in A.
  destruct (do_by_id cf s (v, d)) as [[s' n] r]. unfold sst, snt, srs in A, R'. cbn [fst snd] in A, R'. destruct A as (A1 & A2 & A3 & A4).
  specialize (IH s' R'). cbv zeta in IH. destruct (do_all cf s' l) as [s2 h]. cbn [fst snd] in IH |- *.
  rewrite deeds_cons. unfold fate_of. cbn [filter fst snd]. destruct (String.eqb_spec v u) as [->|NE].
  - cbn [all_alone map fst snd]. destruct (alone u (shown s u) d) as [[x n0] r0]. cbn [fst snd] in A1, A2, A3. subst x n0 r0.
    destruct (all_alone u (shown s' u) (deeds_on u l)) as [y g]. cbn [fst snd] in *. destruct IH as [I1 I2]. split; [exact I1|].
    f_equal. exact I2.
  - rewrite (A4 u) in IH by congruence. exact IH.
Qed.
Print Assumptions C126_each.

Lemma do_all_reachable cf l : forall s, reachable cf s -> reachable cf (fst (do_all cf s l)).
Proof.
  induction l as [|c l IH]; intros s R; [exact R|]. cbn [do_all]. pose proof (do_reachable cf s c R) as R'.
  destruct (do_by_id cf s c) as [[s' n] r]. specialize (IH s' R'). now destruct (do_all cf s' l) as [s2 h].
Qed.

Lemma shown_stored s s' : store_inv s -> store_inv s' -> (forall u, shown s u = shown s' u) -> Permutation (stored s) (stored s').
Proof.
  intros I I' H.
  assert (ND : forall t, store_inv t -> NoDup (stored t)).
  { intros t T. apply (NoDup_map_inv e_uid). rewrite stored_uids by exact T. apply T. }
  apply NoDup_Permutation; [now apply ND..|]. intros e. rewrite !stored_in by assumption.
  assert (X : forall s s', (forall u, shown s u = shown s' u) -> forall u r, get_event s u = Ok r -> e = obj s r -> exists u r, get_event s' u = Ok r /\ e = obj s' r).
  { clear. intros s s' H u r G E. specialize (H u). unfold shown in H. rewrite G in H. exists u. destruct (get_event s' u) as [k|x|]; [|discriminate..].
    exists k. split; [reflexivity|]. congruence. }
  split; intros (u & r & G & E); [apply (X s s' H u r G E)|apply (X s' s (fun u => eq_sym (H u)) u r G E)].
Qed.

(** Two interleavings with the same calls on each event end with the same events, and
    the same answers to every query, and give the same notifications and outcomes of each event's calls. *)
Theorem C126_interleave cf s l l' : reachable cf s -> (forall u, deeds_on u l = deeds_on u l') ->
  let m := do_all cf s l in let m' := do_all cf s l' in
  (forall u, shown (fst m) u = shown (fst m') u /\ fate_of u (snd m) = fate_of u (snd m'))
  /\ Permutation (stored (fst m)) (stored (fst m'))
  /\ (forall F p c, ends_alike (listed_alike occ_alike) (get_occurrences F (stored (fst m)) p c) (get_occurrences F (stored (fst m')) p c))
  /\ (forall F a begins ends tb te,
        ends_alike eq (get_blocked F (stored (fst m)) a begins ends tb te) (get_blocked F (stored (fst m')) a begins ends tb te))
  /\ (forall F a begins ends tb te d,
        ends_alike eq (get_free F (stored (fst m)) a begins ends tb te d) (get_free F (stored (fst m')) a begins ends tb te d)).
Proof.
  intros R H m m'.
  assert (A : forall u, shown (fst m) u = shown (fst m') u /\ fate_of u (snd m) = fate_of u (snd m')).
  { intros u. destruct (C126_each cf u l s R) as [A1 A2]. destruct (C126_each cf u l' s R) as [B1 B2]. rewrite H in A1, A2.
    split; [exact (eq_trans A1 (eq_sym B1))|exact (eq_trans A2 (eq_sym B2))]. }
  assert (R1 : reachable cf (fst m)) by now apply do_all_reachable. assert (R2 : reachable cf (fst m')) by now apply do_all_reachable.
  assert (P : Permutation (stored (fst m)) (stored (fst m'))).
  { apply shown_stored; [now apply (reachable_store cf)..|]. intros u. apply A. }
  assert (L : listed_alike event_alike (stored (fst m)) (stored (fst m'))).
  { exists (stored (fst m')). split; [exact P|]. pose proof (stored_alike _ _ (C120_itself cf _ R2)) as X.
    unfold stored. assert (Y : forall k, event_alike (obj (fst m') k) (obj (fst m') k)) by (intros k; apply obj_alike, (C120_itself cf), R2).
    induction (sys_store (fst m')); cbn [map]; constructor; auto. }
  split; [exact A|]. split; [exact P|]. split; [intros F p c; now apply get_occurrences_alike|].
  split; intros; [now apply blocked_alike|now apply free_alike].
Qed.
Print Assumptions C126_interleave.

(** Ann creates, invites and deletes while Bob works on another event; in one order or the other. *)
Definition anns : list deed := [DCreate (p_spec (p_at 732500 9) None false ann []); DInvite [bob; bob]; DStatus bob (Some "ACCEPTED"%string); DDelete; DDelete].
Definition bobs : list deed := [DInvite [ann]; DAdjust; DStatus ann (Some "MAYBE"%string); DCreate (p_spec (p_at 732501 10) None false bob [])].
Definition as_ann := map (fun d => ("a1"%string, d)) anns.
Definition as_bob := map (fun d => ("b1"%string, d)) bobs.
Fixpoint in_turns {A} (l l' : list A) : list A :=
  match l, l' with x :: l, y :: l' => x :: y :: in_turns l l' | [], _ => l' | _, [] => l end.
Example C126_ex : let s := run cf0 office in
  let m := do_all cf0 s (as_ann ++ as_bob) in let m' := do_all cf0 s (in_turns as_bob as_ann) in
  (forall u, deeds_on u (as_ann ++ as_bob) = deeds_on u (in_turns as_bob as_ann))
  /\ fate_of "a1" (snd m) = [([NCreated "a1"], Ok tt); ([NParticipation "a1" "bob" None (Some "NEEDS-ACTION")], Ok tt);
       ([NParticipation "a1" "bob" (Some "NEEDS-ACTION") (Some "ACCEPTED")], Ok tt); ([NDeleted "a1"], Ok tt); ([], Raise KeyError)]%string
  /\ fate_of "b1" (snd m') = [([NParticipation "b1" "ann" None (Some "NEEDS-ACTION")], Ok tt); ([], Ok tt);
       ([], Raise AssertionError); ([NCreated "b1"], Ok tt)]%string
  /\ map e_uid (stored (fst m)) = map e_uid (stored (fst m')).
Proof.
  split; [|split; [|split]; vm_compute; reflexivity].
  intros u. unfold deeds_on, as_ann, as_bob, anns, bobs. cbn [map app in_turns filter fst snd].
  destruct (String.eqb_spec "a1" u) as [<-|]; [reflexivity|]. now destruct (String.eqb_spec "b1" u) as [<-|].
Qed.
