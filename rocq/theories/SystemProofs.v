(** Facts about the system as a whole: heap, storage and notifications. *)
From Verif Require Import Base PyDate DateFacts Recurrent CalTime TimeProofs Event Storage ICal System
  QueryProofs EventProofs SpecProofs.
From Coq Require Import ZifyBool.
Ltac Zify.zify_post_hook ::= Z.div_mod_to_equations.
Local Opaque ord2ymd year_of month_of day_of ymd2ord days_in_month is_leap.

Definition sst {A} (m : smut A) : system := fst (fst m).
Definition snt {A} (m : smut A) : list notification := snd (fst m).
Definition srs {A} (m : smut A) : res A := snd m.

Lemma sbind_ok {A B} s n (a : A) (f : system -> A -> smut B) :
  sbind (s, n, Ok a) f = (sst (f s a), n ++ snt (f s a), srs (f s a)).
Proof. unfold sbind, sst, snt, srs. destruct (f s a) as [[s' n'] r']. reflexivity. Qed.

Lemma sbind_slift {A B} s (r : res A) (f : system -> A -> smut B) :
  sbind (slift s r) f = match r with Ok a => f s a | Raise e => (s, [], Raise e) | OutOfFuel => (s, [], OutOfFuel) end.
Proof. unfold sbind, slift. destruct r as [a|e|]; try reflexivity. destruct (f s a) as [[s' n'] r']. reflexivity. Qed.

(** a successful sequence is one whose parts succeed *)
Lemma sbind_inv_ok {A B} (m : smut A) (f : system -> A -> smut B) b : srs (sbind m f) = Ok b ->
  exists a, srs m = Ok a /\ srs (f (sst m) a) = Ok b
            /\ sst (sbind m f) = sst (f (sst m) a) /\ snt (sbind m f) = snt m ++ snt (f (sst m) a).
Proof.
  destruct m as [[s n] r]. unfold sbind, srs, sst, snt. cbn. destruct r as [a|e|]; try discriminate.
  intros H. exists a. destruct (f s a) as [[s' n'] r']. cbn in *. auto.
Qed.

(** a reflexive and transitive relation, notifications included *)
Definition T_refl (T : system -> list notification -> system -> Prop) : Prop := forall s, T s [] s.
Definition T_trans (T : system -> list notification -> system -> Prop) : Prop :=
  forall a n1 b n2 c, T a n1 b -> T b n2 c -> T a (n1 ++ n2) c.

Lemma sbind_T {A B} T (m : smut A) (f : system -> A -> smut B) s0 : T_trans T ->
  T s0 (snt m) (sst m) -> (forall a, srs m = Ok a -> T (sst m) (snt (f (sst m) a)) (sst (f (sst m) a))) ->
  T s0 (snt (sbind m f)) (sst (sbind m f)).
Proof.
  intros Tt H1 H2. destruct m as [[s n] r]. unfold sbind, srs, sst, snt in *. cbn in *.
  destruct r as [a|e|]; try exact H1. specialize (H2 a eq_refl). destruct (f s a) as [[s' n'] r']. cbn in *. eauto.
Qed.

Lemma drop_sst {A} (m : smut A) : sst (drop m) = sst m.
Proof. destruct m as [[s n] r]. reflexivity. Qed.
Lemma drop_snt {A} (m : smut A) : snt (drop m) = snt m.
Proof. destruct m as [[s n] r]. reflexivity. Qed.

(** ** positions *)
Lemma replace_nth_length {A} n (l : list A) x : List.length (replace_nth n l x) = List.length l.
Proof. revert n. induction l as [|y l IH]; intros [|n]; cbn; auto. Qed.

Lemma replace_nth_get {A} n (l : list A) x d k :
  nth k (replace_nth n l x) d = if (k =? n)%nat && (n <? List.length l)%nat then x else nth k l d.
Proof.
  revert n k. induction l as [|y l IH]; intros n k.
  - cbn. destruct n, k; cbn; try reflexivity. now rewrite Bool.andb_false_r.
  - destruct n as [|n], k as [|k]; cbn [replace_nth nth]; try reflexivity.
    rewrite IH. cbn [Nat.eqb List.length]. reflexivity.
Qed.

Lemma obj_heap s h r : obj (with_heap s h) r = nth r h (blank "").
Proof. reflexivity. Qed.

Lemma Forall_nth_default {A} (P : A -> Prop) l d k : Forall P l -> P d -> P (nth k l d).
Proof.
  intros H D. destruct (nth_in_or_default k l d) as [I| ->]; [|exact D]. now apply (proj1 (Forall_forall P l) H).
Qed.

Lemma Forall_replace {A} (P : A -> Prop) l n x : Forall P l -> P x -> Forall P (replace_nth n l x).
Proof.
  intros H Hx. revert n. induction H as [|y l Hy H IH]; intros n; [destruct n; constructor|].
  destruct n; cbn; constructor; auto.
Qed.

(** * Properties kept by every event object *)
Definition heap_all (P : event -> Prop) (s : system) : Prop := Forall P (sys_heap s).

Record keeps (P : event -> Prop) (okspec : spec -> Prop) : Prop := {
  k_blank : forall u, P (blank u);
  k_attrs : forall sp e, P e -> P (set_attrs sp e);
  k_adjust : forall e, P e -> P (allday_adjust e);
  k_spec : forall sp e, okspec sp -> P e -> P (mev (set_on_object sp e));
  k_invite : forall l e, P e -> P (mev (invite e l));
  k_role : forall e a ro, P e -> P (mev (set_role e a ro)) }.

(** specifications a text can give rise to *)
Definition import_specs_ok (cf : config) (okspec : spec -> Prop) (vs : list vevent) : Prop :=
  forall v known default sp, In v vs -> import_spec (cf_tz cf) known default v = Ok sp -> okspec sp.

Definition op_ok (cf : config) (P : event -> Prop) (okspec : spec -> Prop) (s : system) (o : op) : Prop :=
  match o with
  | OCreate _ sp _ => okspec sp
  | OAttendeeCreate i sp _ => okspec (with_spec_organizer sp i)
  | OSpecify _ sp => okspec sp
  | OSetStatus r a st => P (mev (set_status (obj s r) a st))
  | OImport _ (Ok (Some vs)) _ _ _ => import_specs_ok cf okspec vs
  | _ => True
  end.

Lemma obj_P {P okspec} (K : keeps P okspec) s r : heap_all P s -> P (obj s r).
Proof. intros H. unfold obj. apply Forall_nth_default; [exact H|apply (k_blank _ _ K)]. Qed.

Lemma create_keeps {P okspec} (K : keeps P okspec) cf s uid sp now : okspec sp -> heap_all P s -> heap_all P (sst (create_event cf s uid sp now)).
Proof.
  intros O H. unfold create_event.
  set (u := match uid with Some u => u | None => _ end). destruct (new_event u sp) as [e|x|] eqn:E; try exact H.
  unfold heap_all, sst. cbn. apply Forall_app. split; [exact H|]. constructor; [|constructor].
  refine (new_event_pres P sp u e _ _ _ E); [|apply (k_adjust _ _ K)|apply (k_blank _ _ K)].
  intros e1. now apply (k_spec _ _ K).
Qed.

Lemma on_event_keeps {P okspec} (K : keeps P okspec) s r f : P (mev (f (obj s r))) -> heap_all P s -> heap_all P (sst (on_event s r f)).
Proof.
  intros F H. unfold on_event. unfold mev in F. destruct (f (obj s r)) as [[e n] x]. unfold sst, heap_all. cbn.
  now apply Forall_replace.
Qed.

Lemma delete_keeps {P okspec} (K : keeps P okspec) s r : heap_all P s -> heap_all P (sst (delete_event s r)).
Proof. intros H. unfold delete_event. destruct (ddel _ _); exact H. Qed.

Lemma delete_loop_keeps {P okspec} (K : keeps P okspec) l : forall s, heap_all P s -> heap_all P (sst (delete_loop s l)).
Proof.
  induction l as [|u l IH]; intros s H; [exact H|]. cbn [delete_loop]. rewrite sbind_slift.
  assert (TT : T_trans (fun _ _ s => heap_all P s)) by (intros ? ? ? ? ? _ X; exact X).
  destruct (get_event s u); try exact H. apply (sbind_T (fun _ _ s => heap_all P s) _ _ s TT).
  - now apply (delete_keeps K).
  - intros [] _. apply IH. now apply (delete_keeps K).
Qed.

Lemma import_one_keeps {P okspec} (K : keeps P okspec) cf s c known v : (forall k d sp, import_spec (cf_tz cf) k d v = Ok sp -> okspec sp) ->
  heap_all P s -> heap_all P (sst (import_one cf s c known v)).
Proof.
  intros O H. assert (TT : T_trans (fun _ _ s => heap_all P s)) by (intros ? ? ? ? ? _ X; exact X).
  unfold import_one. destruct (v_uid v) as [uid|]; [|exact H].
  destruct (str_in uid known).
  - apply (sbind_T (fun _ _ s => heap_all P s) _ _ s TT).
    + unfold import_existing. rewrite sbind_slift. destruct (get_event s uid) as [r| |]; try exact H.
      rewrite sbind_slift. destruct (import_spec _ _ _ v) as [sp| |] eqn:E; try exact H.
      rewrite sbind_slift. destruct (will_modify sp (obj s r)) as [[|]| |]; try exact H.
      apply (sbind_T (fun _ _ s => heap_all P s) _ _ s TT).
      * apply (on_event_keeps K); [|exact H]. apply (k_spec _ _ K); [eapply O; exact E|now apply (obj_P K)].
      * intros [] _. unfold sst at 1. cbn. apply (on_event_keeps K); [|exact H]. apply (k_spec _ _ K); [eapply O; exact E|now apply (obj_P K)].
    + intros [] _. unfold sst at 1. cbn [sret fst].
      unfold import_existing. rewrite sbind_slift. destruct (get_event s uid) as [r| |]; try exact H.
      rewrite sbind_slift. destruct (import_spec _ _ _ v) as [sp| |] eqn:E; try exact H.
      rewrite sbind_slift. destruct (will_modify sp (obj s r)) as [[|]| |]; try exact H.
      apply (sbind_T (fun _ _ s => heap_all P s) _ _ s TT).
      * apply (on_event_keeps K); [|exact H]. apply (k_spec _ _ K); [eapply O; exact E|now apply (obj_P K)].
      * intros [] _. unfold sst at 1. cbn. apply (on_event_keeps K); [|exact H]. apply (k_spec _ _ K); [eapply O; exact E|now apply (obj_P K)].
  - destruct (has_event s uid); [exact H|].
    assert (N : heap_all P (sst (import_new cf s c uid v))).
    { unfold import_new. rewrite sbind_slift. destruct (import_spec _ _ _ v) as [sp| |] eqn:E; try exact H.
      apply (sbind_T (fun _ _ s => heap_all P s) _ _ s TT).
      - apply (create_keeps K); [eapply O; exact E|exact H].
      - intros r _. unfold sst at 1. cbn. apply (create_keeps K); [eapply O; exact E|exact H]. }
    apply (sbind_T (fun _ _ s => heap_all P s) _ _ s TT); [exact N|]. intros [] _. exact N.
Qed.

Lemma import_loop_keeps {P okspec} (K : keeps P okspec) cf c known l : import_specs_ok cf okspec l ->
  forall s, heap_all P s -> heap_all P (sst (import_loop cf s c known l)).
Proof.
  assert (TT : T_trans (fun _ _ s => heap_all P s)) by (intros ? ? ? ? ? _ X; exact X).
  induction l as [|v l IH]; intros O s H; [exact H|]. cbn [import_loop].
  assert (H1 : heap_all P (sst (import_one cf s c known v))).
  { apply (import_one_keeps K); [|exact H]. intros k d sp. apply O. now left. }
  apply (sbind_T (fun _ _ s => heap_all P s) _ _ s TT); [exact H1|]. intros uid _.
  assert (H2 : heap_all P (sst (import_loop cf (sst (import_one cf s c known v)) c known l))).
  { apply IH; [|exact H1]. intros v' k d sp Hin. apply O. now right. }
  apply (sbind_T (fun _ _ s => heap_all P s) _ _ s TT); [exact H2|]. intros uids _. exact H2.
Qed.

Lemma step_keeps {P okspec} (K : keeps P okspec) cf s o : op_ok cf P okspec s o -> heap_all P s -> heap_all P (sst (step cf s o)).
Proof.
  intros O H. assert (TT : T_trans (fun _ _ s => heap_all P s)) by (intros ? ? ? ? ? _ X; exact X).
  destruct o; cbn [step op_ok] in *; rewrite ?drop_sst.
  - now apply (create_keeps K).
  - now apply (create_keeps K).
  - now apply (delete_keeps K).
  - apply (on_event_keeps K); [|exact H]. apply (k_invite _ _ K). now apply (obj_P K).
  - now apply (on_event_keeps K).
  - apply (on_event_keeps K); [|exact H]. apply (k_role _ _ K). now apply (obj_P K).
  - apply (on_event_keeps K); [|exact H]. apply (k_adjust _ _ K). now apply (obj_P K).
  - apply (on_event_keeps K); [|exact H]. apply (k_attrs _ _ K). now apply (obj_P K).
  - apply (on_event_keeps K); [|exact H]. apply (k_spec _ _ K); [exact O|now apply (obj_P K)].
  - exact H.
  - exact H.
  - unfold add_attendee. destruct a; exact H.
  - unfold remove_attendee. destruct (let* i := attendee_id a in _); exact H.
  - unfold import_cal. rewrite sbind_slift. destruct (cal_events s c p cr) as [evs| |]; try exact H.
    rewrite sbind_slift. destruct parsed as [[vs|]| |]; try exact H.
    assert (H1 := (import_loop_keeps K) cf c (nodup string_dec (map e_uid evs)) vs O s H).
    apply (sbind_T (fun _ _ s => heap_all P s) _ _ s TT); [exact H1|]. intros uids _.
    destruct sync; [now apply (delete_loop_keeps K)|exact H1].
Qed.


(** histories whose operations all meet a condition *)
Inductive path (cf : config) (ok : system -> op -> Prop) : system -> Prop :=
| path_init : path cf ok init
| path_step s o : path cf ok s -> ok s o -> path cf ok (sst (step cf s o)).

Lemma path_history cf ok s : path cf ok s -> exists h, history cf s h.
Proof.
  induction 1 as [|s o _ [h H] _]; [exists []; constructor|].
  exists (h ++ [(o, snt (step cf s o), srs (step cf s o))]).
  eapply history_step; [exact H|]. unfold sst, snt, srs. destruct (step cf s o) as [[s' n] r]. reflexivity.
Qed.

Lemma history_path cf s h : history cf s h -> path cf (fun _ _ => True) s.
Proof.
  induction 1 as [|s h o s' n r _ IH E]; [constructor|].
  replace s' with (sst (step cf s o)) by now rewrite E. now apply path_step.
Qed.

Lemma path_keeps P okspec cf s : keeps P okspec -> path cf (op_ok cf P okspec) s -> heap_all P s.
Proof.
  intros K H. induction H as [|s o _ IH O]; [constructor|]. now apply (step_keeps K).
Qed.

Lemma path_weaken cf (ok1 ok2 : system -> op -> Prop) s :
  (forall s o, path cf ok1 s -> path cf ok2 s -> ok1 s o -> ok2 s o) -> path cf ok1 s -> path cf ok2 s.
Proof. intros W H. induction H as [|s o H IH O]; [constructor|]. apply path_step; [exact IH|auto]. Qed.

(** invariants of all histories *)
Lemma keeps_roles : keeps roles_ok (fun _ => True).
Proof.
  constructor.
  - intros u. split; [split; constructor|]. intros i ro. discriminate.
  - auto.
  - intros e [[D1 D2] R]. unfold roles_ok, dicts_ok, roles_documented. rewrite allday_role, allday_state. auto.
  - intros sp e _. apply set_on_object_roles.
  - intros l e. apply invite_roles.
  - intros e a ro. apply set_role_roles.
Qed.

Lemma path_all_roles cf s : path cf (fun _ _ => True) s -> heap_all roles_ok s.
Proof.
  intros H. induction H as [|s o _ IH _]; [constructor|]. apply (step_keeps keeps_roles); [|exact IH].
  destruct o; cbn; auto.
  - apply set_status_roles. now apply (obj_P keeps_roles).
  - destruct parsed as [[vs|]| |]; auto. intros ? ? ? ? ? ?. exact I.
Qed.

Lemma reachable_roles_ok cf s r : reachable cf s -> roles_ok (obj s r).
Proof.
  intros [h H]. apply (obj_P keeps_roles). eapply path_all_roles. eapply history_path. exact H.
Qed.

Lemma reachable_dicts_ok cf s r : reachable cf s -> dicts_ok (obj s r).
Proof. intros H. apply (reachable_roles_ok cf s r H). Qed.

(** statuses *)
Lemma keeps_statuses : keeps statuses_ok spec_statuses_ok.
Proof.
  constructor.
  - intros u. split; [split; constructor|]. intros i ro. discriminate.
  - auto.
  - intros e [[D1 D2] R]. unfold statuses_ok, dicts_ok, statuses_documented. rewrite allday_role, allday_state. auto.
  - intros sp e O. now apply set_on_object_statuses.
  - intros l e. apply invite_statuses.
  - intros e a ro. apply set_role_statuses.
Qed.

(** every specification and every imported component carries documented statuses *)
Definition careful_statuses (o : op) : Prop :=
  match o with
  | OCreate _ sp _ | OAttendeeCreate _ sp _ | OSpecify _ sp => spec_statuses_ok sp
  | OImport _ (Ok (Some vs)) _ _ _ =>
      forall v i st ro, In v vs -> In (i, Some st, ro) (v_attendees v) -> In st statuses
  | _ => True
  end.

Lemma import_spec_attendees tz known default v sp : import_spec tz known default v = Ok sp ->
  s_attendees sp = map (fun a : string * option string * option string => let '(i, partstat, role) := a in
      (if known i then Some i else None, dflt role "REQ-PARTICIPANT"%string, Some (dflt partstat "NEEDS-ACTION"%string)))
      (v_attendees v).
Proof.
  unfold import_spec. destruct (dtstart_duration tz v) as [[[s d] ad]| |]; try discriminate. cbn [rbind].
  match goal with |- rbind ?r _ = _ -> _ => destruct r as [org| |]; try discriminate end. cbn [rbind].
  match goal with |- rbind ?r _ = _ -> _ => destruct r as [rec| |]; try discriminate end.
  cbn [rbind]. intros E. injection E as <-. reflexivity.
Qed.

Lemma careful_statuses_ok cf s : path cf (fun _ o => careful_statuses o) s -> heap_all statuses_ok s.
Proof.
  intros H. induction H as [|s o _ IH O]; [constructor|].
  apply (step_keeps keeps_statuses); [|exact IH].
  destruct o; cbn in *; auto.
  - apply set_status_statuses. now apply (obj_P keeps_statuses).
  - destruct parsed as [[vs|]| |]; auto. intros v known default sp Hv E a ro st Hin.
    rewrite (import_spec_attendees _ _ _ _ _ E) in Hin. apply in_map_iff in Hin as ([[i ps] ro'] & X & Hi).
    injection X as _ _ X. destruct ps as [ps|]; cbn in X.
    + subst. eapply O; eassumption.
    + subst. now left.
Qed.

(** participants have roles, if a status is only set for those who have one *)
Lemma keeps_covered : keeps covered (fun _ => True).
Proof.
  constructor.
  - intros u. split; [split; constructor|]. intros i H. now elim H.
  - auto.
  - intros e [[D1 D2] R]. unfold covered, dicts_ok, roles_known. rewrite allday_role, allday_state. auto.
  - intros sp e _. apply set_on_object_covered.
  - intros l e. apply invite_covered.
  - intros e a ro. apply set_role_covered.
Qed.

Definition invited_only (s : system) (o : op) : Prop :=
  match o with
  | OSetStatus r (Some i) (Some _) => dget (e_role (obj s r)) i <> None
  | _ => True
  end.

Lemma invited_covered cf s : path cf invited_only s -> heap_all covered s.
Proof.
  intros H. induction H as [|s o _ IH O]; [constructor|].
  apply (step_keeps keeps_covered); [|exact IH].
  destruct o; cbn in *; auto.
  - apply set_status_covered; [now apply (obj_P keeps_covered)|]. intros i st' -> ->. exact O.
  - destruct parsed as [[vs|]| |]; auto. intros ? ? ? ? ? ?. exact I.
Qed.

(** * The storage as a map *)
(** is the event with this id stored, judging by the notifications? *)
Definition alive1 (uid : string) (b : bool) (n : notification) : bool :=
  match n with
  | NCreated u => if String.eqb u uid then true else b
  | NDeleted u => if String.eqb u uid then false else b
  | _ => b
  end.
Definition alive (n : list notification) (uid : string) (b : bool) : bool := fold_left (alive1 uid) n b.

Lemma alive_app n1 n2 uid b : alive (n1 ++ n2) uid b = alive n2 uid (alive n1 uid b).
Proof. unfold alive. apply fold_left_app. Qed.

Lemma has_event_dget s uid : has_event s uid = match dget (sys_store s) uid with Some _ => true | None => false end.
Proof. unfold has_event, get_event. now destruct (dget (sys_store s) uid). Qed.

(** an event's id never changes and events are never forgotten; the storage
    refers to the newest object of each id, and changes as notified *)
Definition store_inv (s : system) : Prop :=
  NoDup (dkeys (sys_store s))
  /\ forall uid r, dget (sys_store s) uid = Some r ->
       (r < List.length (sys_heap s))%nat /\ e_uid (obj s r) = uid
       /\ forall r', (r' < List.length (sys_heap s))%nat -> e_uid (obj s r') = uid -> (r' <= r)%nat.

Definition grows (s s' : system) : Prop :=
  (List.length (sys_heap s) <= List.length (sys_heap s'))%nat
  /\ forall r, (r < List.length (sys_heap s))%nat -> e_uid (obj s' r) = e_uid (obj s r).

Definition tracks (s : system) (n : list notification) (s' : system) : Prop :=
  store_inv s -> store_inv s' /\ grows s s'
    /\ forall uid, has_event s' uid = alive n uid (has_event s uid).

Lemma grows_refl s : grows s s.
Proof. split; auto. Qed.
Lemma grows_trans a b c : grows a b -> grows b c -> grows a c.
Proof. intros [L1 H1] [L2 H2]. split; [lia|]. intros r Hr. rewrite H2 by lia. now apply H1. Qed.

Lemma tracks_refl : T_refl tracks.
Proof. intros s H. split; [exact H|]. split; [apply grows_refl|]. reflexivity. Qed.
Lemma tracks_trans : T_trans tracks.
Proof.
  intros a n1 b n2 c H1 H2 Ia. destruct (H1 Ia) as (Ib & G1 & A1). destruct (H2 Ib) as (Ic & G2 & A2).
  split; [exact Ic|]. split; [eapply grows_trans; eauto|]. intros uid. now rewrite A2, A1, alive_app.
Qed.

Lemma app_obj (h : list event) e r : (r < List.length h)%nat -> nth r (h ++ [e]) (blank "") = nth r h (blank "").
Proof. intros H. now rewrite app_nth1. Qed.

Lemma create_tracks cf s uid sp now :
  tracks s (snt (create_event cf s uid sp now)) (sst (create_event cf s uid sp now)).
Proof.
  unfold create_event. set (u := match uid with Some u => u | None => _ end).
  destruct (new_event u sp) as [e|x|] eqn:E; try apply tracks_refl.
  pose proof (new_event_uid u sp e E) as U. intros [N I]. unfold sst, snt. cbn [fst snd].
  assert (OBJ : forall r, obj (mkSys (sys_heap s ++ [e]) (dset (sys_store s) u (List.length (sys_heap s))) (sys_source s) (sys_cals s)) r
                = nth r (sys_heap s ++ [e]) (blank "")) by reflexivity.
  split; [split|split].
  - cbn. now apply dset_nodup.
  - cbn [sys_store sys_heap]. intros v r. rewrite dget_dset, app_length. cbn [List.length].
    destruct (String.eqb_spec v u) as [->|NE].
    + intros X. injection X as <-. split; [lia|]. rewrite OBJ, nth_middle. split; [exact U|]. intros r' Hr' _. lia.
    + intros X. destruct (I v r X) as (I1 & I2 & I3). split; [lia|]. rewrite OBJ, app_obj by exact I1. split; [exact I2|].
      intros r' Hr'. destruct (Nat.eq_dec r' (List.length (sys_heap s))) as [->|Hne].
      * rewrite OBJ, nth_middle. congruence.
      * rewrite OBJ, app_obj by lia. intros. apply I3; [lia|assumption].
  - split; [cbn; rewrite app_length; lia|]. intros r Hr. rewrite OBJ, app_obj by exact Hr. reflexivity.
  - intros v. rewrite !has_event_dget. cbn. rewrite dget_dset, (String.eqb_sym u v).
    destruct (String.eqb v u); reflexivity.
Qed.

Lemma delete_tracks s r : tracks s (snt (delete_event s r)) (sst (delete_event s r)).
Proof.
  unfold delete_event, ddel. destruct (dget (sys_store s) (e_uid (obj s r))) as [r0|] eqn:D; [|apply tracks_refl].
  intros [N I]. unfold sst, snt. cbn [fst snd]. split; [split|split].
  - cbn. now apply drem_nodup.
  - cbn [with_store sys_store sys_heap]. intros uid r1. rewrite dget_drem by exact N.
    destruct (String.eqb uid (e_uid (obj s r))); [discriminate|]. apply I.
  - split; auto.
  - intros v. rewrite !has_event_dget. cbn. rewrite dget_drem by exact N. rewrite (String.eqb_sym (e_uid (obj s r)) v).
    destruct (String.eqb v (e_uid (obj s r))); reflexivity.
Qed.

Definition keeps_uid (f : event -> mut) : Prop := forall e, e_uid (mev (f e)) = e_uid e.

(** notifications that say nothing about the storage *)
Definition quiet (n : list notification) : Prop :=
  Forall (fun x => match x with NCreated _ | NDeleted _ => False | _ => True end) n.
Lemma quiet_alive n uid b : quiet n -> alive n uid b = b.
Proof.
  intros H. revert b. induction H as [|x n Hx H IH]; intros b; [reflexivity|]. cbn. unfold alive in IH. rewrite IH.
  destruct x; cbn in *; tauto.
Qed.

Lemma heap_tracks s r e n : e_uid e = e_uid (obj s r) -> quiet n ->
  tracks s n (with_heap s (replace_nth r (sys_heap s) e)).
Proof.
  intros U Q [N I].
  assert (OU : forall k, e_uid (obj (with_heap s (replace_nth r (sys_heap s) e)) k) = e_uid (obj s k)).
  { intros k. rewrite obj_heap, replace_nth_get. destruct ((k =? r)%nat && (r <? List.length (sys_heap s))%nat) eqn:B; [|reflexivity].
    apply Bool.andb_true_iff in B as [B _]. apply Nat.eqb_eq in B. now subst. }
  split; [split|split].
  - exact N.
  - cbn [with_heap sys_store sys_heap]. intros uid r1 X. rewrite replace_nth_length.
    destruct (I uid r1 X) as (I1 & I2 & I3). split; [exact I1|]. rewrite OU. split; [exact I2|].
    intros r' Hr'. rewrite OU. now apply I3.
  - split; [cbn; now rewrite replace_nth_length|]. intros k _. apply OU.
  - intros uid. rewrite quiet_alive by exact Q. reflexivity.
Qed.

Lemma on_event_tracks s r f : keeps_uid f -> quiet (mnotes (f (obj s r))) ->
  tracks s (snt (on_event s r f)) (sst (on_event s r f)).
Proof.
  intros U Q. specialize (U (obj s r)). unfold on_event. unfold mev, mnotes in *. destruct (f (obj s r)) as [[e n] x]. cbn in *.
  now apply heap_tracks.
Qed.

Lemma replays_quiet uid n : forall a b, replays uid a n b -> quiet n.
Proof.
  induction n as [|x n IH]; intros a b H; [constructor|]. cbn in H. destruct x; try contradiction.
  destruct H as (_ & _ & _ & H). constructor; [exact I|eapply IH; exact H].
Qed.

Lemma set_status_quiet e a st : quiet (mnotes (set_status e a st)).
Proof.
  destruct (set_status_cases e a st) as [(-> & _)|[(-> & _)|[(i & _ & -> & _)|(i & -> & K & NE & ->)]]];
    try constructor.
  pose proof (set_raw_notes e (Some i) st) as N. destruct (set_status_raw e (Some i) st) as [[e1 n1] r1].
  unfold mnotes in *. cbn in N. subst. cbn. destruct r1; cbn; repeat constructor.
Qed.

Lemma source_tracks s s' : sys_heap s' = sys_heap s -> sys_store s' = sys_store s -> tracks s [] s'.
Proof.
  intros H1 H2 [N I]. assert (OB : forall r, obj s' r = obj s r) by (intros r; unfold obj; now rewrite H1).
  split; [split|split].
  - now rewrite H2.
  - rewrite H2, H1. intros uid r X. rewrite OB. destruct (I uid r X) as (I1 & I2 & I3). split; [exact I1|]. split; [exact I2|].
    intros r'. rewrite OB. apply I3.
  - split; [now rewrite H1|]. intros r _. now rewrite OB.
  - intros uid. rewrite !has_event_dget, H2. reflexivity.
Qed.

Lemma delete_loop_tracks l : forall s, tracks s (snt (delete_loop s l)) (sst (delete_loop s l)).
Proof.
  induction l as [|u l IH]; intros s; [apply tracks_refl|]. cbn [delete_loop]. rewrite sbind_slift.
  destruct (get_event s u); try apply tracks_refl. apply sbind_T; [exact tracks_trans|apply delete_tracks|].
  intros [] _. apply IH.
Qed.

Lemma import_existing_tracks cf s c uid v :
  tracks s (snt (import_existing cf s c uid v)) (sst (import_existing cf s c uid v)).
Proof.
  unfold import_existing. rewrite sbind_slift. destruct (get_event s uid) as [r| |]; try apply tracks_refl.
  rewrite sbind_slift. destruct (import_spec _ _ _ v) as [sp| |]; try apply tracks_refl.
  rewrite sbind_slift. destruct (will_modify sp (obj s r)) as [[|]| |]; try apply tracks_refl.
  apply sbind_T; [exact tracks_trans| |].
  - apply on_event_tracks; [intros e; apply set_on_object_uid|]. rewrite set_on_object_notes. constructor.
  - intros [] _ [N I]. unfold sst at 1, snt at 1. cbn [fst snd]. split; [now split|]. split; [apply grows_refl|]. reflexivity.
Qed.

Lemma import_new_tracks cf s c uid v : tracks s (snt (import_new cf s c uid v)) (sst (import_new cf s c uid v)).
Proof.
  unfold import_new. rewrite sbind_slift. destruct (import_spec _ _ _ v) as [sp| |]; try apply tracks_refl.
  apply sbind_T; [exact tracks_trans|apply create_tracks|]. intros r _. apply tracks_refl.
Qed.

Lemma import_one_tracks cf s c known v : tracks s (snt (import_one cf s c known v)) (sst (import_one cf s c known v)).
Proof.
  unfold import_one. destruct (v_uid v) as [uid|]; [|apply tracks_refl]. destruct (str_in uid known).
  - apply sbind_T; [exact tracks_trans|apply import_existing_tracks|]. intros [] _. apply tracks_refl.
  - destruct (has_event s uid); [apply tracks_refl|].
    apply sbind_T; [exact tracks_trans|apply import_new_tracks|]. intros [] _. apply tracks_refl.
Qed.

Lemma import_loop_tracks cf c known l : forall s,
  tracks s (snt (import_loop cf s c known l)) (sst (import_loop cf s c known l)).
Proof.
  induction l as [|v l IH]; intros s; [apply tracks_refl|]. cbn [import_loop].
  apply sbind_T; [exact tracks_trans|apply import_one_tracks|]. intros uid _.
  apply sbind_T; [exact tracks_trans|apply IH|]. intros uids _. apply tracks_refl.
Qed.

Lemma step_tracks cf s o : tracks s (snt (step cf s o)) (sst (step cf s o)).
Proof.
  destruct o; cbn [step]; rewrite ?drop_sst, ?drop_snt.
  - apply create_tracks.
  - apply create_tracks.
  - apply delete_tracks.
  - apply on_event_tracks; [intros e; apply invite_attrs|]. eapply replays_quiet, invite_replays.
  - apply on_event_tracks; [intros e; apply set_status_attrs|]. apply set_status_quiet.
  - apply on_event_tracks; [intros e; apply set_role_attrs|]. rewrite set_role_notes. constructor.
  - apply on_event_tracks; [intros e; apply allday_uid|]. constructor.
  - apply on_event_tracks; [intros e; reflexivity|]. constructor.
  - apply on_event_tracks; [intros e; apply set_on_object_uid|]. rewrite set_on_object_notes. constructor.
  - now apply source_tracks.
  - now apply source_tracks.
  - unfold add_attendee. destruct a; now apply source_tracks.
  - unfold remove_attendee. destruct (let* i := attendee_id a in _); now apply source_tracks.
  - unfold import_cal. rewrite sbind_slift. destruct (cal_events s c p cr) as [evs| |]; try apply tracks_refl.
    rewrite sbind_slift. destruct parsed as [[vs|]| |]; try apply tracks_refl.
    apply sbind_T; [exact tracks_trans|apply import_loop_tracks|]. intros uids _.
    destruct sync; [apply delete_loop_tracks|apply tracks_refl].
Qed.

Definition all_notes (h : list (op * list notification * res unit)) : list notification :=
  flat_map (fun x => snd (fst x)) h.

Lemma store_inv_init : store_inv init.
Proof. split; [constructor|]. intros uid r. discriminate. Qed.

Lemma history_tracks cf s h : history cf s h -> store_inv s
  /\ forall uid, has_event s uid = alive (all_notes h) uid false.
Proof.
  induction 1 as [|s h o s' n r _ [IH1 IH2] E]; [split; [exact store_inv_init|reflexivity]|].
  pose proof (step_tracks cf s o) as T. rewrite E in T. destruct (T IH1) as (T1 & _ & T3).
  split; [exact T1|]. intros uid. unfold all_notes. rewrite flat_map_app. cbn [flat_map snd fst]. rewrite app_nil_r, alive_app.
  rewrite T3, IH2. reflexivity.
Qed.

Lemma reachable_store cf s : reachable cf s -> store_inv s.
Proof. intros [h H]. now apply (history_tracks cf s h). Qed.

(** creating and deleting, precisely *)
Lemma create_spec cf s uid sp now : let m := create_event cf s uid sp now in
  let u := match uid with Some u => u | None => generated_id cf now (List.length (sys_store s)) end in
  (exists r e, m = (mkSys (sys_heap s ++ [e]) (dset (sys_store s) u r) (sys_source s) (sys_cals s), [NCreated u], Ok r)
     /\ r = List.length (sys_heap s) /\ new_event u sp = Ok e /\ e_uid e = u)
  \/ (sst m = s /\ snt m = [] /\ forall r, srs m <> Ok r).
Proof.
  cbv zeta. unfold create_event. set (u := match uid with Some u => u | None => _ end).
  destruct (new_event u sp) as [e|x|] eqn:E.
  - left. exists (List.length (sys_heap s)), e. split; [reflexivity|]. split; [reflexivity|]. split; [reflexivity|]. now apply new_event_uid in E.
  - right. repeat split. discriminate.
  - right. repeat split. discriminate.
Qed.
