(** Property theorems C136: a subscriber that keeps a copy of the stored events. *)
From Verif Require Import Base PyDate Recurrent CalTime Event Storage ICal System Deliver
  QueryProofs EventProofs SpecProofs SystemProofs StoreProofs ImportContent DeliverProofs PropEvent PropSystem PropDeliver PropTold.

(** * The subscriber *)
(** the id a notification is about *)
Definition about_id (x : notification) : string :=
  match x with NCreated u | NModified u | NDeleted u => u | NParticipation u _ _ _ => u end.
(** what the store has under an id *)
Definition kept_at (s : system) (u : string) : option event :=
  match get_event s u with Ok r => Some (obj s r) | _ => None end.
(** told anything about an id, it looks the id up and remembers the event as it
    is then, or that there is none *)
Definition copies := string -> option event.
Definition look_up (k : copies) (s : system) (u : string) : copies :=
  fun v => if String.eqb v u then kept_at s u else k v.
(** it keeps them in the first part of the memory *)
Definition mirror {M} : watcher (copies * M) := fun k s _ x => Return (look_up (fst k) s (about_id x), snd k) (Ok tt).
(** the other subscribers do not know of that part *)
Fixpoint untouched {M} (l : copies) (p : program M) : program (copies * M) :=
  match p with
  | Return k r => Return (l, k) r
  | Call k o next => Call (l, k) o (fun k s r => untouched (fst k) (next (snd k) s r))
  end.
Definition another {M} (w : watcher M) : watcher (copies * M) := fun k s r x => untouched (fst k) (w (snd k) s r x).

(** equal in everything but the roles of the participants *)
Definition same_but_roles (e1 e2 : event) : Prop := with_role e1 (e_role e2) = e2.
Definition up_to_date (k : copies) (s : system) : Prop := forall u,
  match k u, kept_at s u with
  | Some e1, Some e2 => same_but_roles e1 e2
  | None, None => True
  | _, _ => False
  end.

(** calls that change nothing of an event without saying so *)
Definition loud (o : op) : Prop :=
  match o with
  | OSetRole _ _ _ | OAdjust _ | OAssign _ _ | OSpecify _ _ => False
  | _ => True
  end.
(** calls that can raise after having changed something *)
Definition may_break (o : op) : Prop :=
  match o with OSetStatus _ _ None | OImport _ _ _ _ _ => True | _ => False end.

(** * Proofs *)
Definition near (x y : option event) : Prop :=
  match x, y with
  | Some e1, Some e2 => same_but_roles e1 e2
  | None, None => True
  | _, _ => False
  end.
Definition filed (s : system) : Prop := NoDup (dkeys (sys_store s)) /\ forall u r, dget (sys_store s) u = Some r ->
  (r < List.length (sys_heap s))%nat /\ e_uid (obj s r) = u.
(** up to date, except perhaps for one id *)
Definition but_for (u : string) (k : copies) (s : system) : Prop :=
  filed s /\ forall v, v <> u -> near (k v) (kept_at s v).
Definition current (k : copies) (s : system) : Prop := filed s /\ up_to_date k s.

Lemma same_refl e : same_but_roles e e.
Proof. now destruct e. Qed.
Lemma same_role e1 e2 ro : same_but_roles e1 e2 -> same_but_roles e1 (with_role e2 ro).
Proof. unfold same_but_roles. intros <-. reflexivity. Qed.
Lemma near_refl x : near x x.
Proof. destruct x; [apply same_refl|exact I]. Qed.

Lemma current_but u k s : current k s -> but_for u k s.
Proof. intros [F U]. split; [exact F|]. intros v _. apply U. Qed.

Lemma told_current u k s : but_for u k s -> current (look_up k s u) s.
Proof.
  intros [F N]. split; [exact F|]. intros v. unfold look_up. destruct (String.eqb_spec v u) as [->|X]; [apply near_refl|exact (N v X)].
Qed.

(** unless Python gives up *)
Definition holds {M A} (m : tmut (copies * M) A) : Prop := srs (snd m) <> OutOfFuel -> current (fst (fst m)) (sst (snd m)).
(** being told brings the copies up to date *)
Definition told {M} (t : teller (copies * M)) : Prop := forall k s r x, but_for (about_id x) (fst k) s -> holds (t k s r x).

Lemma tbind_holds {M A B} (m : tmut (copies * M) A) (f : copies * M -> system -> A -> tmut (copies * M) B) : holds m ->
  (forall a, srs (snd m) = Ok a -> current (fst (fst m)) (sst (snd m)) -> holds (f (fst m) (sst (snd m)) a)) -> holds (tbind m f).
Proof.
  intros H1 H2. destruct m as [k [[s n] r]]. unfold holds, sst, srs in *. cbn [fst snd tbind] in *. destruct r as [a|x|]; [|intros _; apply H1; discriminate|intros X; now destruct X].
  assert (C : current (fst k) s) by (apply H1; discriminate).
  specialize (H2 a eq_refl C). destruct (f k s a) as [k' [[s' n'] r']]. exact H2.
Qed.

Lemma on_event_but k s r f : (forall e, e_uid (mev (f e)) = e_uid e) -> current k s ->
  but_for (e_uid (obj s r)) k (sst (on_event s r f)) /\ e_uid (obj (sst (on_event s r f)) r) = e_uid (obj s r).
Proof.
  intros U [[ND F] C]. unfold on_event. pose proof (U (obj s r)) as UR. destruct (f (obj s r)) as [[e n] x] eqn:E. unfold mev in UR. cbn [fst snd] in UR.
  unfold sst. cbn [fst snd].
  assert (O : forall q, obj (with_heap s (replace_nth r (sys_heap s) e)) q = if (q =? r)%nat && (r <? List.length (sys_heap s))%nat then e else obj s q).
  { intros q. rewrite obj_heap. apply replace_nth_get. }
  split; [|rewrite O; destruct (_ && _); [exact UR|reflexivity]]. split; [split; [exact ND|]|].
  - intros u q D. specialize (F u q D) as [F1 F2]. split.
    + cbn [sys_heap with_heap]. rewrite replace_nth_length. exact F1.
    + rewrite O. destruct ((q =? r)%nat && (r <? List.length (sys_heap s))%nat) eqn:B; [|exact F2].
      apply andb_true_iff in B as [B _]. apply Nat.eqb_eq in B. subst q. congruence.
  - intros v V. specialize (C v). unfold kept_at, get_event in *. cbn [sys_store with_heap].
    destruct (dget (sys_store s) v) as [q|] eqn:D; [|exact C]. rewrite O. destruct (_ && _) eqn:B; [|exact C].
    exfalso. apply andb_true_iff in B as [B _]. apply Nat.eqb_eq in B. subst q. apply F in D as [_ D]. congruence.
Qed.

Lemma set_role_current k s r a ro : current k s -> current k (sst (set_role_on s r a ro)).
Proof.
  intros [[ND F] C]. unfold set_role_on, on_event.
  assert (R : exists d, mev (set_role (obj s r) a ro) = with_role (obj s r) d).
  { unfold set_role, mev. destruct (str_in ro roles), a as [i|]; cbn; try (eexists; reflexivity); exists (e_role (obj s r)); destruct (obj s r); reflexivity. }
  destruct R as [d R]. destruct (set_role (obj s r) a ro) as [[e n] x]. unfold mev in R. cbn [fst snd] in R. subst e. unfold sst. cbn [fst snd].
  assert (O : forall q, obj (with_heap s (replace_nth r (sys_heap s) (with_role (obj s r) d))) q
    = if (q =? r)%nat && (r <? List.length (sys_heap s))%nat then with_role (obj s r) d else obj s q).
  { intros q. rewrite obj_heap. apply replace_nth_get. }
  split; [split; [exact ND|]|].
  - intros u q D. specialize (F u q D) as [F1 F2]. split.
    + cbn [sys_heap with_heap]. rewrite replace_nth_length. exact F1.
    + rewrite O. destruct (_ && _) eqn:B; [|exact F2]. apply andb_true_iff in B as [B _]. apply Nat.eqb_eq in B. subst q. exact F2.
  - intros v. specialize (C v). unfold kept_at, get_event in *. cbn [sys_store with_heap].
    destruct (dget (sys_store s) v) as [q|] eqn:D; [|exact C]. rewrite O. destruct (_ && _) eqn:B; [|exact C].
    apply andb_true_iff in B as [B _]. apply Nat.eqb_eq in B. subst q. destruct (k v) as [e1|]; [|exact C]. now apply same_role.
Qed.

Lemma set_raw_uid a st e : e_uid (mev (set_status_raw e a st)) = e_uid e.
Proof. apply set_raw_attrs. Qed.

Lemma set_status_holds {M} (t : teller (copies * M)) k s r a st : told t -> current (fst k) s ->
  srs (snd (set_status_on t k s r a st)) = Ok tt \/ st <> None -> holds (set_status_on t k s r a st).
Proof.
  intros T C OK. unfold set_status_on in *.
  destruct (match st with None => true | Some x => str_in x statuses end); [|intros _; exact C].
  rewrite tbind_slift in *. destruct (get_status (obj s r) a) as [old| |] eqn:G; try (intros _; exact C).
  destruct (opt_str_eqb old st); [intros _; exact C|].
  destruct a as [i|]; [|discriminate].
  destruct (on_event_but (fst k) s r (fun e => set_status_raw e (Some i) st) (set_raw_uid (Some i) st) C) as [B U].
  assert (Q : st <> None -> srs (on_event s r (fun e => set_status_raw e (Some i) st)) = Ok tt).
  { intros N. destruct st as [x|]; [reflexivity|congruence]. }
  destruct (on_event s r (fun e => set_status_raw e (Some i) st)) as [[s1 n1] r1]. unfold srs, sst in *. cbn [fst snd] in *.
  destruct r1 as [[]|x|].
  - rewrite tbind_ok. unfold announce. rewrite tbind_ok. unfold holds, srs, sst. cbn [fst snd].
    pose proof (T k s1 r (NParticipation (e_uid (obj s1 r)) i old st)) as X. cbn [about_id] in X. rewrite U in X. rewrite U. exact (X B).
  - exfalso. destruct OK as [OK|OK]; [discriminate OK|]. apply Q in OK. discriminate OK.
  - exfalso. destruct OK as [OK|OK]; [discriminate OK|]. apply Q in OK. discriminate OK.
Qed.

Lemma invite_holds {M} (t : teller (copies * M)) l : told t -> forall k s r, current (fst k) s -> holds (invite_on t k s r l).
Proof.
  intros T. induction l as [|a l IH]; intros k s r C; [intros _; exact C|]. cbn [invite_on]. rewrite tbind_slift.
  destruct (get_status (obj s r) a) as [[st|]| |]; try (intros _; exact C); [now apply IH|].
  assert (H : holds (set_status_on t k s r a (Some "NEEDS-ACTION"%string))) by (apply set_status_holds; auto; right; discriminate).
  assert (H2 : holds (tbind (set_status_on t k s r a (Some "NEEDS-ACTION"%string)) (fun k s _ => unheard k (set_role_on s r a "REQ-PARTICIPANT")))).
  { apply tbind_holds; [exact H|]. intros _ _ X _. apply set_role_current, X. }
  apply tbind_holds; [exact H2|]. intros _ _ X. apply IH, X.
Qed.

Lemma create_holds {M} cf (t : teller (copies * M)) k s uid sp now : told t -> current (fst k) s -> holds (create_on t cf k s uid sp now).
Proof.
  intros T [[ND F] C]. unfold create_on. destruct (create_spec cf s uid sp now) as [(r & e & -> & R & _ & U)|(E & _ & NO)].
  - set (u := match uid with Some u => u | None => _ end) in *. set (s1 := mkSys _ _ _ _).
    assert (O : obj s1 r = e) by (unfold obj, s1; cbn [sys_heap]; rewrite R, app_nth2, Nat.sub_diag by lia; reflexivity).
    assert (B : but_for u (fst k) s1).
    { split; [split; [apply dset_nodup, ND|]|].
      - intros v q D. unfold s1 in D. cbn [sys_store] in D. rewrite dget_dset in D. unfold s1 at 1. cbn [sys_heap]. rewrite app_length. cbn [List.length].
        destruct (String.eqb_spec v u) as [->|V].
        + injection D as <-. split; [lia|]. now rewrite O.
        + apply F in D as [D1 D2]. split; [lia|]. unfold obj, s1. cbn [sys_heap]. now rewrite app_obj.
      - intros v V. specialize (C v). unfold kept_at, get_event in *. unfold s1 at 1. cbn [sys_store]. rewrite dget_dset.
        destruct (String.eqb_spec v u) as [->|_]; [congruence|]. destruct (dget (sys_store s) v) as [q|] eqn:D; [|exact C].
        apply F in D as [D1 _]. unfold obj, s1. cbn [sys_heap]. rewrite app_obj by exact D1. exact C. }
    rewrite tbind_ok. unfold holds, sst, srs. cbn [fst snd]. rewrite O, U.
    pose proof (T k s1 r (NCreated u) B) as X. apply (tbind_holds (t k s1 r (NCreated u)) (fun k s _ => unheard k (sret s r)) X).
    intros _ _ Y _. exact Y.
  - destruct (create_event cf s uid sp now) as [[s1 n1] r1]. unfold sst, srs in *. cbn [fst snd] in *. subst s1.
    destruct r1 as [r1| |]; [destruct (NO r1 eq_refl)|..]; (intros _; split; [split|]; assumption).
Qed.

Lemma delete_holds {M} (t : teller (copies * M)) k s r : told t -> current (fst k) s -> holds (delete_on t k s r).
Proof.
  intros T C. unfold delete_on, delete_event, ddel. destruct (dget (sys_store s) (e_uid (obj s r))) as [q0|]; [|intros _; exact C].
  rewrite tbind_ok. unfold holds, sst, srs. cbn [fst snd]. apply T. cbn [about_id].
  destruct C as [[ND F] C]. split; [split; [apply drem_nodup, ND|]|].
  - intros v q X. cbn [sys_store with_store] in X. rewrite dget_drem in X by exact ND. destruct (String.eqb v _); [discriminate|exact (F v q X)].
  - intros v V. specialize (C v). unfold kept_at, get_event in *. cbn [sys_store with_store]. rewrite dget_drem by exact ND.
    destruct (String.eqb_spec v (e_uid (obj s r))) as [E|_]; [destruct (V E)|exact C].
Qed.

(** the same for calls that return *)
Definition holds_if_ok {M A} (m : tmut (copies * M) A) : Prop := forall a, srs (snd m) = Ok a -> current (fst (fst m)) (sst (snd m)).

Lemma tbind_ok_holds {M A B} (m : tmut (copies * M) A) (f : copies * M -> system -> A -> tmut (copies * M) B) : holds_if_ok m ->
  (forall a, srs (snd m) = Ok a -> current (fst (fst m)) (sst (snd m)) -> holds_if_ok (f (fst m) (sst (snd m)) a)) -> holds_if_ok (tbind m f).
Proof.
  intros H1 H2 b. destruct m as [k [[s n] r]]. unfold holds_if_ok, sst, srs in *. cbn [fst snd tbind] in *. destruct r as [a|x|]; [|discriminate..].
  specialize (H1 a eq_refl). specialize (H2 a eq_refl H1). destruct (f k s a) as [k' [[s' n'] r']]. exact (H2 b).
Qed.

Lemma always_ok {M A} (m : tmut (copies * M) A) : holds m -> holds_if_ok m.
Proof. intros H a E. apply H. rewrite E. discriminate. Qed.
Lemma as_it_was {M A} (k : copies * M) (s : system) n (r : res A) : current (fst k) s -> holds_if_ok (k, (s, n, r)).
Proof. intros C a _. exact C. Qed.

Lemma import_existing_holds {M} cf (t : teller (copies * M)) k s c uid v : told t -> current (fst k) s -> holds_if_ok (import_existing_on t cf k s c uid v).
Proof.
  intros T C. unfold import_existing_on. rewrite tbind_slift. destruct (get_event s uid) as [r| |]; [|now apply as_it_was..].
  rewrite tbind_slift. destruct (import_spec _ _ _ v) as [sp| |]; [|now apply as_it_was..].
  rewrite tbind_slift. destruct (will_modify sp (obj s r)) as [[]| |]; [|now apply as_it_was..].
  destruct (on_event_but (fst k) s r (set_on_object sp) (set_on_object_uid sp) C) as [B U].
  destruct (on_event s r (set_on_object sp)) as [[s1 n1] [[]| |]]; unfold sst in *; cbn [fst snd] in *; [|intros a X; discriminate X..].
  apply always_ok. rewrite tbind_ok. unfold announce. rewrite tbind_ok. unfold holds, sst, srs. cbn [fst snd].
  pose proof (T k s1 r (NModified (e_uid (obj s1 r)))) as X. cbn [about_id] in X. rewrite U in X. rewrite U. exact (X B).
Qed.

Lemma import_one_holds {M} cf (t : teller (copies * M)) k s c known v : told t -> current (fst k) s -> holds_if_ok (import_one_on t cf k s c known v).
Proof.
  intros T C. unfold import_one_on. destruct (v_uid v) as [uid|]; [|now apply as_it_was]. destruct (str_in uid known).
  - apply tbind_ok_holds; [now apply import_existing_holds|]. intros a _ H. now apply as_it_was.
  - destruct (has_event s uid); [now apply as_it_was|]. apply tbind_ok_holds; [|intros a _ H; now apply as_it_was].
    unfold import_new_on. rewrite tbind_slift. destruct (import_spec _ _ _ v) as [sp| |]; [|now apply as_it_was..].
    apply tbind_ok_holds; [apply always_ok, create_holds; assumption|]. intros a _ H. now apply as_it_was.
Qed.

Lemma import_loop_holds {M} cf (t : teller (copies * M)) c known l : told t -> forall k s, current (fst k) s -> holds_if_ok (import_loop_on t cf k s c known l).
Proof.
  intros T. induction l as [|v l IH]; intros k s C; [now apply as_it_was|]. cbn [import_loop_on].
  apply tbind_ok_holds; [now apply import_one_holds|]. intros u _ H. apply tbind_ok_holds; [now apply IH|]. intros us _ H2. now apply as_it_was.
Qed.

Lemma delete_loop_holds {M} (t : teller (copies * M)) l : told t -> forall k s, current (fst k) s -> holds (delete_loop_on t k s l).
Proof.
  intros T. induction l as [|u l IH]; intros k s C; [intros _; exact C|]. cbn [delete_loop_on]. rewrite tbind_slift.
  destruct (get_event s u) as [r| |]; try (intros _; exact C). apply tbind_holds; [now apply delete_holds|]. intros _ _ X. apply IH, X.
Qed.

Lemma import_holds {M} cf (t : teller (copies * M)) k s c parsed p cr sync : told t -> current (fst k) s -> holds_if_ok (import_on t cf k s c parsed p cr sync).
Proof.
  intros T C. unfold import_on. rewrite tbind_slift. destruct (cal_events s c p cr) as [evs| |]; [|now apply as_it_was..].
  rewrite tbind_slift. destruct parsed as [[vs|]| |]; [|now apply as_it_was..].
  apply tbind_ok_holds; [now apply import_loop_holds|]. intros us _ H. destruct sync; [|now apply as_it_was].
  now apply always_ok, delete_loop_holds.
Qed.

Lemma call_keeps {M} cf (t : teller (copies * M)) k s o : told t -> current (fst k) s -> loud o ->
  holds_if_ok (step_on t cf k s o) /\ (may_break o \/ holds (step_on t cf k s o)).
Proof.
  intros T C L.
  assert (W : forall m : smut unit, current (fst k) (sst m) -> holds_if_ok (unheard k m) /\ (False \/ holds (unheard k m))).
  { intros [[s0 n0] r0] X. split; [intros a _; exact X|right; intros _; exact X]. }
  destruct o as [uid sp now|i sp now|q|q l|q a st|q a ro|q|q sp|q sp|i nm ty| |c a|c a|c parsed p cr sync]; cbn [step_on loud may_break] in *;
    try (destruct L; fail).
  - assert (X : holds (tbind (create_on t cf k s uid sp now) (fun k s _ => unheard k (sret s tt)))); [|split; [now apply always_ok|now right]].
    apply tbind_holds; [now apply create_holds|]. intros _ _ Y _. exact Y.
  - assert (X : holds (tbind (create_on t cf k s None (with_spec_organizer sp i) now) (fun k s _ => unheard k (sret s tt)))); [|split; [now apply always_ok|now right]].
    apply tbind_holds; [now apply create_holds|]. intros _ _ Y _. exact Y.
  - pose proof (delete_holds t k s q T C). split; [now apply always_ok|now right].
  - pose proof (invite_holds t l T k s q C). split; [now apply always_ok|now right].
  - split.
    + intros [] X. apply set_status_holds; auto. rewrite X. discriminate.
    + destruct st as [st|]; [right|now left]. apply set_status_holds; auto. right. discriminate.
  - apply W. exact C.
  - apply W. exact C.
  - apply W. cbn [step]. unfold add_attendee. destruct a; exact C.
  - apply W. cbn [step]. unfold remove_attendee. destruct a as [a|]; [|exact C].
    repeat match goal with |- context [match ?x with _ => _ end] => destruct x end; exact C.
  - split; [now apply import_holds|now left].
Qed.

(** what the others may do: calls that are announced and do not raise midway *)
Definition fair (o : op) : Prop := loud o /\ ~ may_break o.

Lemma carry_out_holds {M} cf (t : teller (copies * M)) (p : program M) : told t -> gives_up p -> calls_within fair p ->
  forall l s, current l s -> holds (carry_out (step_on t cf) s (untouched l p)).
Proof.
  intros T. induction p as [k0 r0|k0 o next IH]; cbn [gives_up calls_within untouched carry_out]; intros G W l s C; [intros _; exact C|].
  destruct G as [G1 G2], W as [[W1 W3] W2].
  destruct (call_keeps cf t (l, k0) s o T C W1) as [_ [H|H]]; [contradiction|].
  destruct (step_on t cf (l, k0) s o) as [[l1 k1] [[s1 n1] r1]]. unfold holds, srs, sst in *. cbn [fst snd] in *.
  destruct r1 as [u|x|].
  - specialize (IH k1 s1 (Ok u) (G2 _ _ _) (W2 _ _ _) l1 s1 (H ltac:(discriminate))).
    destruct (carry_out (step_on t cf) s1 (untouched l1 (next k1 s1 (Ok u)))) as [k2 [[s2 n2] r2]]. exact IH.
  - specialize (IH k1 s1 (Raise x) (G2 _ _ _) (W2 _ _ _) l1 s1 (H ltac:(discriminate))).
    destruct (carry_out (step_on t cf) s1 (untouched l1 (next k1 s1 (Raise x)))) as [k2 [[s2 n2] r2]]. exact IH.
  - destruct (G1 k1 s1) as [k' ->]. cbn [untouched carry_out fst snd]. intros X. congruence.
Qed.

Lemma each_holds {M} cf (t : teller (copies * M)) (others : list (watcher M)) : told t -> all_give_up others -> within fair others ->
  forall k s r x, current (fst k) s -> holds (each_on (step_on t cf) (map another others) k s r x).
Proof.
  intros T. induction others as [|w others IH]; intros G W k s r x C; cbn [map each_on]; [intros _; exact C|].
  apply tbind_holds.
  - unfold another. apply carry_out_holds; [exact T|apply G; now left|apply W; now left|exact C].
  - intros _ _ X. apply IH; [intros w' k' s' r' x' Hw; apply G; now right|intros w' k' s' r' x' Hw; apply W; now right|exact X].
Qed.

Lemma deliver_told {M} cf (others : list (watcher M)) d : all_give_up others -> within fair others -> told (deliver d cf (mirror :: map another others)).
Proof.
  intros G W. induction d as [|d IH]; intros k s r x B; cbn [deliver each_on].
  - intros X. cbn in X. congruence.
  - apply tbind_holds; [intros _; apply told_current, B|]. intros _ _ C. apply each_holds; [exact IH|exact G|exact W|exact C].
Qed.

(** the subscriber alone *)
Lemma alone_told {M} cf d (k : copies * M) s r x : deliver (S d) cf [mirror] k s r x = ((look_up (fst k) s (about_id x), snd k), (s, [], Ok tt)).
Proof. reflexivity. Qed.

(** * C136 *)
(** Calls one after the other, the subscriber remembering what it heard.  It was
    registered first; the others, which may be exchanged between calls, act as
    they like with calls that are announced ([fair]).  A removal of a participant
    or an import that raises is not among the calls, nor one that goes too deep
    ([OutOfFuel]), which the others do not catch ([all_give_up]). *)
Inductive watched (cf : config) : copies -> system -> Prop :=
| watched_init : watched cf (fun _ => None) init
| watched_step M (others : list (watcher M)) (m m' : M) k s depth o k' s' n r : watched cf k s ->
    all_give_up others -> within fair others -> loud o -> r <> OutOfFuel -> r = Ok tt \/ ~ may_break o ->
    step_told depth cf (mirror :: map another others) (k, m) s o = ((k', m'), (s', n, r)) -> watched cf k' s'.

Lemma watched_current cf k s : watched cf k s -> current k s.
Proof.
  intros W. induction W as [|M others m m' k s depth o k' s' n r _ IH G A L NF OK E].
  - split; [split; [constructor|intros u r D; discriminate D]|]. intros u. exact I.
  - destruct (call_keeps cf _ (k, m) s o (deliver_told cf others depth G A) IH L) as [H1 H2]. unfold step_told in E. rewrite E in *.
    unfold holds_if_ok, holds, sst, srs in *. cbn [fst snd] in *. destruct OK as [->|OK]; [exact (H1 tt eq_refl)|].
    destruct H2 as [H2|H2]; [contradiction|exact (H2 NF)].
Qed.

(** its copies are the stored events, no more and no fewer, equal in everything
    but the roles *)
Theorem C136_mirror : forall cf k s, watched cf k s -> forall u,
  match k u, get_event s u with
  | Some e, Ok r => forall ro, e_role (obj s r) = ro -> obj s r = with_role e ro
  | None, Raise KeyError => True
  | _, _ => False
  end.
Proof.
  intros cf k s W u. destruct (watched_current cf k s W) as [_ C]. specialize (C u). unfold kept_at, get_event in *.
  destruct (dget (sys_store s) u) as [r|], (k u) as [e|]; try exact C. intros ro <-. now symmetry.
Qed.
Print Assumptions C136_mirror.

(** The roles: an invitation is announced before the role is given, so the copy has
    the roles from before it. *)
Theorem C136_role_behind : forall cf k s depth u r i (m m' : unit) k' s' n x, watched cf k s -> get_event s u = Ok r ->
  get_status (obj s r) (Some i) = Ok None ->
  step_told (S depth) cf [mirror] (k, m) s (OInvite r [Some i]) = ((k', m'), (s', n, x)) ->
  x = Ok tt /\ get_role (obj s' r) (Some i) = Ok (Some "REQ-PARTICIPANT"%string)
  /\ exists e, k' u = Some e /\ get_status e (Some i) = Ok (Some "NEEDS-ACTION"%string) /\ e_role e = e_role (obj s r).
Proof.
  intros cf k s depth u r i m m' k' s' n x W G S E.
  pose proof (watched_current cf k s W) as C.
  destruct C as [[_ F] _]. unfold get_event in G. destruct (dget (sys_store s) u) as [q|] eqn:D; [|discriminate]. injection G as ->.
  destruct (F u r D) as [R U].
  set (e1 := with_state (obj s r) (dset (e_state (obj s r)) i "NEEDS-ACTION"%string)).
  set (s1 := with_heap s (replace_nth r (sys_heap s) e1)).
  assert (O1 : obj s1 r = e1).
  { unfold s1. rewrite obj_heap, replace_nth_get, Nat.eqb_refl. replace (r <? List.length (sys_heap s))%nat with true by (symmetry; now apply Nat.ltb_lt). reflexivity. }
  assert (E1 : set_status_on (deliver (Datatypes.S depth) cf [mirror]) (k, m) s r (Some i) (Some "NEEDS-ACTION"%string)
    = ((look_up k s1 u, m), (s1, [NParticipation u i None (Some "NEEDS-ACTION"%string)], Ok tt))).
  { unfold set_status_on. change (str_in "NEEDS-ACTION" statuses) with true. cbv iota. rewrite tbind_slift, S. cbn [opt_str_eqb].
    unfold on_event. cbn [set_status_raw attendee_id]. fold e1. fold s1. rewrite tbind_ok. unfold announce. rewrite tbind_ok. rewrite alone_told.
    cbn [fst snd sst snt srs app about_id]. rewrite O1. cbn [e_uid with_state e1]. unfold e1. cbn [e_uid with_state]. now rewrite U. }
  unfold step_told in E. cbn [step_on invite_on] in E. rewrite tbind_slift, S in E. rewrite E1 in E.
  cbn [tbind] in E. unfold set_role_on, on_event in E. rewrite O1 in E. unfold set_role in E. change (str_in "REQ-PARTICIPANT" roles) with true in E.
  cbn [attendee_id tbind unheard sret app] in E. injection E as <- _ <- _ <-. split; [reflexivity|].
  assert (L1 : List.length (sys_heap s1) = List.length (sys_heap s)) by (unfold s1; cbn [sys_heap with_heap]; apply replace_nth_length).
  split.
  - rewrite obj_heap, replace_nth_get, Nat.eqb_refl.
    match goal with |- context [(r <? ?L)%nat] => replace (r <? L)%nat with true by (symmetry; apply Nat.ltb_lt; change (r < List.length (sys_heap s1))%nat; lia) end.
    cbn [andb]. unfold get_role. cbn [attendee_id rbind e_role with_role]. rewrite dget_dset, String.eqb_refl. reflexivity.
  - exists e1. split; [|split; [|reflexivity]].
    + unfold look_up. rewrite String.eqb_refl. unfold kept_at, get_event. unfold s1 at 1. cbn [sys_store with_heap]. rewrite D. now rewrite O1.
    + unfold get_status. cbn [attendee_id rbind]. unfold e1. cbn [e_state with_state]. rewrite dget_dset, String.eqb_refl. reflexivity.
Qed.
Print Assumptions C136_role_behind.

(** A status that is announced brings the whole copy up to date, roles included. *)
Theorem C136_refreshed : forall cf k s depth u r i st (m m' : unit) k' s' n, get_event s u = Ok r -> e_uid (obj s r) = u ->
  step_told (S depth) cf [mirror] (k, m) s (OSetStatus r (Some i) st) = ((k', m'), (s', n, Ok tt)) -> n <> [] ->
  k' u = Some (obj s' r).
Proof.
  intros cf k s depth u r i st m m' k' s' n G U E N. unfold step_told in E. cbn [step_on] in E. unfold set_status_on in E.
  destruct (match st with None => true | Some x => str_in x statuses end); [|discriminate]. rewrite tbind_slift in E.
  destruct (get_status (obj s r) (Some i)) as [old| |]; try discriminate. destruct (opt_str_eqb old st).
  { injection E as _ _ _ <-. congruence. }
  assert (K : e_uid (obj (sst (on_event s r (fun e => set_status_raw e (Some i) st))) r) = u).
  { unfold on_event. pose proof (set_raw_uid (Some i) st (obj s r)) as X. destruct (set_status_raw (obj s r) (Some i) st) as [[e m0] y].
    unfold mev in X. cbn in X. unfold sst. cbn [fst snd]. rewrite obj_heap, replace_nth_get. destruct (_ && _); [now rewrite X|exact U]. }
  assert (Q : sys_store (sst (on_event s r (fun e => set_status_raw e (Some i) st))) = sys_store s).
  { unfold on_event. destruct (set_status_raw (obj s r) (Some i) st) as [[e m0] y]. reflexivity. }
  destruct (on_event s r (fun e => set_status_raw e (Some i) st)) as [[s1 n1] [[]| |]]; unfold sst in *; cbn [fst snd] in *; [|discriminate..].
  rewrite tbind_ok in E. unfold announce in E. rewrite tbind_ok in E. rewrite alone_told in E. unfold sst, snt, srs in E. cbn [fst snd about_id] in E.
  injection E as <- _ <- _. rewrite K. unfold look_up. rewrite String.eqb_refl. unfold kept_at, get_event in *. rewrite Q.
  destruct (dget (sys_store s) u) as [q|]; [|discriminate]. now injection G as ->.
Qed.
Print Assumptions C136_refreshed.

(** ** cases *)
(** a run; the last part says that no call went too deep *)
Fixpoint watch {M} (cf : config) (others : list (watcher M)) (m : M) (k : copies) (s : system) (l : list op) : copies * M * system * bool :=
  match l with
  | [] => (k, m, s, true)
  | o :: l => let '((k, m), (s, _, r)) := step_told 5 cf (mirror :: map another others) (k, m) s o in
              let '(w, b) := watch cf others m k s l in (w, match r with OutOfFuel => false | _ => b end)
  end.
Definition copies_of {M} (w : copies * M * system * bool) : copies := fst (fst (fst w)).
Definition memory_of {M} (w : copies * M * system * bool) : M := snd (fst (fst w)).
Definition state_of {M} (w : copies * M * system * bool) : system := snd (fst w).

Lemma watch_watched {M} cf (others : list (watcher M)) l : all_give_up others -> within fair others -> forall m k s, watched cf k s ->
  Forall fair l -> snd (watch cf others m k s l) = true ->
  watched cf (copies_of (watch cf others m k s l)) (state_of (watch cf others m k s l)).
Proof.
  intros G A. induction l as [|o l IH]; intros m k s W P B; [exact W|]. inversion P as [|? ? [P1 P2] P3]; subst. cbn [watch] in *.
  destruct (step_told 5 cf (mirror :: map another others) (k, m) s o) as [[k' m'] [[s' n] r]] eqn:E.
  specialize (IH m' k' s'). destruct (watch cf others m' k' s' l) as [w b]. cbn [snd] in *. unfold copies_of, state_of in *. cbn [fst snd] in *.
  assert (NF : r <> OutOfFuel) by (intros ->; discriminate).
  apply IH; [|exact P3|destruct r; [exact B|exact B|congruence]].
  exact (watched_step cf M others m m' k s 5 o k' s' n r W G A P1 NF (or_intror P2) E).
Qed.

(** an office in which one event was deleted: the copies; bob is invited, which
    leaves his role missing until he answers; then an assignment that nobody
    hears of *)
Example C136_case :
  let w := watch cf0 [] tt (fun _ => None) init (office ++ [ODelete 2; OInvite 0 [bob]]) in
  let w2 := watch cf0 [] tt (copies_of w) (state_of w) [OSetStatus 0 bob (Some "TENTATIVE"%string)] in
  let w3 := watch cf0 [] tt (copies_of w2) (state_of w2) [OAssign 0 (p_spec (p_at 732507 9) (Some HOUR) false ann [])] in
  watched cf0 (copies_of w) (state_of w) /\ watched cf0 (copies_of w2) (state_of w2)
  /\ copies_of w "a2"%string = Some (obj (state_of w) 1) /\ copies_of w "b1"%string = None
  /\ option_map e_role (copies_of w "a1"%string) = Some [("ann", "REQ-PARTICIPANT")]%string
  /\ e_role (obj (state_of w) 0) = [("ann", "REQ-PARTICIPANT"); ("bob", "REQ-PARTICIPANT")]%string
  /\ copies_of w2 "a1"%string = Some (obj (state_of w2) 0)
  /\ copies_of w3 "a1"%string <> Some (obj (state_of w3) 0).
Proof.
  cbv zeta.
  assert (A : Forall fair ((office ++ [ODelete 2; OInvite 0 [bob]]) ++ [OSetStatus 0 bob (Some "TENTATIVE"%string)])).
  { unfold office. cbn [app]. repeat (constructor; [cbn; split; cbn; tauto|]). constructor. }
  apply Forall_app in A as [A1 A2].
  assert (G : all_give_up ([] : list (watcher unit))) by (intros w k s r x []).
  assert (Q : within fair ([] : list (watcher unit))) by (intros w k s r x []).
  pose proof (watch_watched cf0 [] _ G Q tt _ _ (watched_init cf0) A1 ltac:(vm_compute; reflexivity)) as W1. split; [exact W1|].
  split; [refine (watch_watched cf0 [] _ G Q tt _ _ W1 A2 _); vm_compute; reflexivity|].
  clear. do 5 (split; [vm_compute; reflexivity|]). vm_compute. discriminate.
Qed.

(** with a subscriber that accepts every invitation to it at once: bob's copy has
    the answer *)
Example C136_accepting :
  let w := watch cf0 [accept] tt (fun _ => None) init (office ++ [OInvite 0 [bob]]) in
  watched cf0 (copies_of w) (state_of w)
  /\ get_status (obj (state_of w) 0) bob = Ok (Some "ACCEPTED"%string)
  /\ option_map (fun e => get_status e bob) (copies_of w "a1"%string) = Some (Ok (Some "ACCEPTED"%string)).
Proof.
  cbv zeta.
  assert (A : Forall fair (office ++ [OInvite 0 [bob]])).
  { unfold office. cbn [app]. repeat (constructor; [cbn; split; cbn; tauto|]). constructor. }
  split; [|split; vm_compute; reflexivity].
  refine (watch_watched cf0 [accept] _ _ _ tt _ _ (watched_init cf0) A _); [| |vm_compute; reflexivity].
  - intros w k s r x [<-|[]]. apply accept_gives_up.
  - intros w k s r x [<-|[]]. unfold accept. destruct x as [u|u|u|u i old new]; try exact I. split; [split; cbn; tauto|]. intros; exact I.
Qed.

(** the removal of somebody without a role, which raises, is not heard of either *)
Example C136_break :
  let w := watch cf0 [] tt (fun _ => None) init (office ++ [OSetStatus 0 bob (Some "TENTATIVE"%string)]) in
  let w2 := watch cf0 [] tt (copies_of w) (state_of w) [OSetStatus 0 bob None] in
  copies_of w "a1"%string = Some (obj (state_of w) 0)
  /\ option_map (fun e => get_status e bob) (copies_of w2 "a1"%string) = Some (Ok (Some "TENTATIVE"%string))
  /\ get_status (obj (state_of w2) 0) bob = Ok None.
Proof. vm_compute. auto. Qed.
