(** Property theorems C159: what can be taken back. *)
From Verif Require Import Base PyDate Recurrent CalTime Event Storage ICal System.
From Verif Require Import QueryProofs EventProofs SpecProofs SystemProofs StoreProofs IdProofs ImportProofs ShuffleProofs ShuffleSystem.
From Verif Require Import PropEvent PropSystem PropCalendar PropChange PropShuffle PropTold PropPersonal.
From Coq Require Import Sorting.Permutation.

(** ** Specification *)
(** one call after the other, and how each ended *)
Fixpoint do_calls (cf : config) (s : system) (l : list op) : system * list (res unit) :=
  match l with
  | [] => (s, [])
  | o :: l => let '(s', _, r) := step cf s o in let '(s'', rs) := do_calls cf s' l in (s'', r :: rs)
  end.

(** everything there was in [s] is in [t] as it was: every event object, with
    everybody's status and role, the storage, the people known and the members of
    the calendars; [t] may have further objects that are not stored and further
    calendars *)
Definition regained (s t : system) : Prop :=
  (List.length (sys_heap s) <= List.length (sys_heap t))%nat
  /\ (forall k, (k < List.length (sys_heap s))%nat -> same_attrs (obj s k) (obj t k) /\ forall i, seen t k i = seen s k i)
  /\ (forall u, get_event t u = get_event s u)
  /\ (forall i, dget (sys_source t) i = dget (sys_source s) i)
  /\ (List.length (sys_cals s) <= List.length (sys_cals t))%nat
  /\ (forall c i, (c < List.length (sys_cals s))%nat -> dget (cal t c) i = dget (cal s c) i).

(** the id an event is created under *)
Definition new_id (cf : config) (s : system) (u : option string) (now : Z) : string :=
  match u with Some u => u | None => generated_id cf now (List.length (sys_store s)) end.

(** every call except deletions, imports that delete, the registration of new
    people and creations that replace an event *)
Definition revocable (cf : config) (s : system) (o : op) : Prop :=
  match o with
  | OInvite r _ | OSetStatus r _ _ | OSetRole r _ _ | OAdjust r | OAssign r _ | OSpecify r _ =>
      (r < List.length (sys_heap s))%nat
  | OCreate u _ now => has_event s (new_id cf s u now) = false
  | OAttendeeCreate _ _ now => has_event s (new_id cf s None now) = false
  | OAttendee i _ _ => dget (sys_source s) i <> None
  | OCalendar => True
  | OAddAttendee c _ | ORemoveAttendee c _ => (c < List.length (sys_cals s))%nat
  | OImport _ _ _ _ _ => forall u, has_event s u = true -> has_event (sst (step cf s o)) u = true
  | ODelete _ => False
  end.
Fixpoint all_revocable (cf : config) (s : system) (l : list op) : Prop :=
  match l with [] => True | o :: l => revocable cf s o /\ all_revocable cf (sst (step cf s o)) l end.

(** ** bringing one person back *)
Definition restore (r : nat) (i : string) (p : person) : list pcall :=
  [CRole r i "CHAIR"; CAnswer r i (Some "ACCEPTED"); CAnswer r i None]%string
  ++ match p_status p with Some x => [CAnswer r i (Some x)] | None => [] end
  ++ match p_role p with Some x => [CRole r i x] | None => [] end.

Lemma restore_about r i p c : In c (restore r i p) -> forall k j, means k j c <> None <-> k = r /\ j = i.
Proof.
  intros H k j. assert (X : c = CRole r i "CHAIR"%string \/ (exists st, c = CAnswer r i st) \/ exists ro, c = CRole r i ro).
  { unfold restore in H. cbn [app] in H. destruct H as [<-|[<-|[<-|H]]]; [auto|eauto..|]. apply in_app_or in H.
    destruct H as [H|H]; [destruct (p_status p)|destruct (p_role p)]; cbn in H; try contradiction; destruct H as [<-|[]]; eauto. }
  destruct X as [->|[(st & ->)|(ro & ->)]]; cbn [means]; destruct (Nat.eqb_spec r k) as [->|], (String.eqb_spec i j) as [->|]; cbn [andb];
    split; intros Q; try (split; congruence); try congruence; destruct Q; congruence.
Qed.

Lemma meanings_app r i a b : meanings r i (a ++ b) = meanings r i a ++ meanings r i b.
Proof. induction a as [|c a IH]; [reflexivity|]. cbn [app meanings]. rewrite IH. now destruct (means r i c). Qed.

Lemma meanings_none r i l : (forall c, In c l -> means r i c = None) -> meanings r i l = [].
Proof. intros H. induction l as [|c l IH]; [reflexivity|]. cbn [meanings]. rewrite (H c) by now left. apply IH. intros. apply H. now right. Qed.

Lemma restore_other r i p k j : k <> r \/ j <> i -> meanings k j (restore r i p) = [].
Proof.
  intros N. apply meanings_none. intros c H. destruct (means k j c) eqn:M; [|reflexivity].
  assert (X : means k j c <> None) by congruence. apply (restore_about r i p c H) in X. destruct N, X; congruence.
Qed.

Lemma one_answer u i q x : known_status x = true -> p_status q = None ->
  oneself u i q [Answer (Some x)] = (Person (Some x) (p_role q), [([NParticipation u i None (Some x)], Ok tt)]).
Proof. intros K Q. cbn [oneself by_oneself]. rewrite K. cbn [negb]. rewrite Q. reflexivity. Qed.
Lemma one_role u i q x : known_role x = true -> oneself u i q [Role x] = (Person (p_status q) (Some x), [([], Ok tt)]).
Proof. intros K. cbn [oneself by_oneself]. now rewrite K. Qed.
Lemma oneself_app u i l1 l2 : forall q, oneself u i q (l1 ++ l2) =
  (fst (oneself u i (fst (oneself u i q l1)) l2), snd (oneself u i q l1) ++ snd (oneself u i (fst (oneself u i q l1)) l2)).
Proof.
  induction l1 as [|a l1 IH]; intros q; [cbn; now destruct (oneself u i q l2)|]. cbn [app oneself]. destruct (by_oneself q a) as [[p' d] x].
  rewrite IH. destruct (oneself u i p' l1). reflexivity.
Qed.
Lemma one_clear u i q : exists n, oneself u i q [Role "CHAIR"; Answer (Some "ACCEPTED"); Answer None]%string = (Person None None, n) /\ Forall (fun x => snd x = Ok tt) n.
Proof.
  destruct q as [[z|] ro]; cbn; [destruct (String.eqb z "ACCEPTED"); cbn|]; eexists; split; try reflexivity; repeat constructor.
Qed.

Lemma restore_own u r i p q : (forall x, p_status p = Some x -> known_status x = true) -> (forall x, p_role p = Some x -> known_role x = true) ->
  let m := oneself u i q (meanings r i (restore r i p)) in fst m = p /\ Forall (fun x => snd x = Ok tt) (snd m).
Proof.
  intros HS HR. destruct p as [st ro]. unfold restore. cbn [p_status p_role] in *. rewrite !meanings_app.
  assert (M : forall st, means r i (CAnswer r i st) = Some (Answer st)) by (intros; cbn; now rewrite Nat.eqb_refl, String.eqb_refl).
  assert (M' : forall ro, means r i (CRole r i ro) = Some (Role ro)) by (intros; cbn; now rewrite Nat.eqb_refl, String.eqb_refl).
  cbv zeta. rewrite oneself_app. destruct (one_clear u i q) as (n & C & F).
  replace (meanings r i [CRole r i "CHAIR"; CAnswer r i (Some "ACCEPTED"); CAnswer r i None]%string)
    with [Role "CHAIR"; Answer (Some "ACCEPTED"); Answer None]%string by (cbn [meanings]; now rewrite M', !M).
  rewrite C. cbn [fst snd]. rewrite oneself_app.
  assert (X : exists n', oneself u i (Person None None) (meanings r i match st with Some x => [CAnswer r i (Some x)] | None => [] end) = (Person st None, n')
    /\ Forall (fun x => snd x = Ok tt) n').
  { destruct st as [x|]; cbn [meanings]; [rewrite M|]; [|exists []; split; [reflexivity|constructor]].
    rewrite one_answer; [|now apply HS|reflexivity]. eexists. split; [reflexivity|repeat constructor]. }
  destruct X as (n' & X & F'). rewrite X. cbn [fst snd].
  assert (Y : exists n'', oneself u i (Person st None) (meanings r i match ro with Some x => [CRole r i x] | None => [] end) = (Person st ro, n'')
    /\ Forall (fun x => snd x = Ok tt) n'').
  { destruct ro as [x|]; cbn [meanings]; [rewrite M'|]; [|exists []; split; [reflexivity|constructor]].
    rewrite one_role; [|now apply HR]. eexists. split; [reflexivity|repeat constructor]. }
  destruct Y as (n'' & Y & F''). rewrite Y. cbn [fst snd]. split; [reflexivity|]. apply Forall_app. split; [exact F|]. apply Forall_app. now split.
Qed.

Lemma lot_all r i h : (forall x, In x h -> means r i (fst (fst x)) <> None) -> map snd (lot r i h) = map snd h.
Proof.
  induction h as [|[[c n] x] h IH]; intros H; [reflexivity|]. cbn [lot]. destruct (means r i c) eqn:M.
  - cbn [map snd]. rewrite IH; [reflexivity|]. intros y Y. apply H. now right.
  - exfalso. apply (H _ (or_introl eq_refl)). exact M.
Qed.

Lemma call_all_app cf a b : forall s, call_all cf s (a ++ b) =
  (fst (call_all cf (fst (call_all cf s a)) b), snd (call_all cf s a) ++ snd (call_all cf (fst (call_all cf s a)) b)).
Proof.
  induction a as [|c a IH]; intros s; [cbn; now destruct (call_all cf s b)|]. cbn [app call_all]. destruct (step cf s (pcall_op c)) as [[s' n] r].
  rewrite IH. destruct (call_all cf s' a) as [s2 h]. reflexivity.
Qed.

Lemma restore_run cf r (g : string -> person) L : forall t, reachable cf t -> (r < List.length (sys_heap t))%nat ->
  (forall i, (forall x, p_status (g i) = Some x -> known_status x = true) /\ (forall x, p_role (g i) = Some x -> known_role x = true)) ->
  let m := call_all cf t (flat_map (fun i => restore r i (g i)) L) in
  (forall k i, (k < List.length (sys_heap t))%nat -> seen (fst m) k i = if Nat.eqb k r && str_in i L then g i else seen t k i)
  /\ Forall (fun x => snd x = Ok tt) (snd m).
Proof.
  induction L as [|j L IH]; intros t R B G; cbv zeta; cbn [flat_map].
  { cbn. split; [intros k i _; now rewrite andb_false_r|constructor]. }
  rewrite call_all_app. cbn [fst snd]. set (m1 := call_all cf t (restore r j (g j))).
  destruct (C157_only cf (restore r j (g j)) t R) as (R1 & L1 & _ & _ & _ & _ & MP & _). fold m1 in R1, L1, MP.
  assert (S1 : forall k i, (k < List.length (sys_heap t))%nat -> seen (fst m1) k i = if Nat.eqb k r && String.eqb i j then g j else seen t k i).
  { intros k i K. destruct (C157_alone cf (restore r j (g j)) t k i R K) as [X _]. fold m1 in X. rewrite X.
    destruct (Nat.eqb_spec k r) as [->|N]; cbn [andb]; [destruct (String.eqb_spec i j) as [->|N]|].
    - apply restore_own; apply G.
    - rewrite restore_other by auto. reflexivity.
    - rewrite restore_other by auto. reflexivity. }
  assert (O1 : Forall (fun x => snd x = Ok tt) (snd m1)).
  { destruct (C157_alone cf (restore r j (g j)) t r j R B) as [_ X]. fold m1 in X.
    assert (Q : map snd (lot r j (snd m1)) = map snd (snd m1)).
    { apply lot_all. intros x X'. assert (I : In (fst (fst x)) (restore r j (g j))) by (rewrite <- MP; now apply (in_map (fun h => fst (fst h)))).
      now apply (restore_about r j (g j) _ I). }
    rewrite X in Q. destruct (restore_own (e_uid (obj t r)) r j (g j) (seen t r j) (proj1 (G j)) (proj2 (G j))) as [_ F].
    apply Forall_forall. intros x X'. apply (in_map snd) in X'. rewrite <- Q in X'. apply in_map_iff in X' as (y & <- & Y).
    rewrite Forall_forall in F. now apply F. }
  destruct (IH (fst m1) R1 ltac:(now rewrite L1) G) as [S2 O2].
  split; [|apply Forall_app; now split]. intros k i K. rewrite S2 by now rewrite L1. rewrite S1 by exact K.
  unfold str_in. cbn [existsb]. destruct (Nat.eqb k r); cbn [andb]; [|reflexivity]. fold (str_in i L). destruct (str_in i L); [now rewrite orb_true_r|].
  rewrite orb_false_r. now destruct (String.eqb_spec i j) as [->|].
Qed.

(** ** bringing one event back *)
(** those whose status the API does not accept, which only a specification sets *)
Definition odd_ones (e : event) : list (attendee * string * option string) :=
  flat_map (fun i => match dget (e_state e) i, dget (e_role e) i with
                     | Some x, Some ro => if known_status x then [] else [(Some i, ro, Some x)]
                     | _, _ => []
                     end) (dkeys (e_state e)).
Definition ordinary (e : event) (i : string) : bool :=
  match dget (e_state e) i with Some x => known_status x | None => true end.
Definition spec_of (e : event) : spec :=
  mkSpec (e_dtstart e) (e_duration e) (e_title e) (e_description e) (e_location e) (e_status e) (e_recurrence e) (e_allday e)
         (e_categories e) (e_transparent e) (e_access e) (e_document e) (e_organizer e) (odd_ones e).
Definition on_it (e : event) : list string :=
  dkeys (e_state e) ++ dkeys (e_role e) ++ match e_organizer e with Some i => [i] | None => [] end.
Definition undo_event (r : nat) (e e' : event) : list op :=
  OSpecify r (spec_of e) :: map pcall_op (flat_map (fun i => restore r i (look e i)) (filter (ordinary e) (on_it e ++ on_it e'))).

(** somebody with such a status also has a role *)
Definition backed (e : event) : Prop :=
  dicts_ok e /\ forall i x, dget (e_state e) i = Some x -> known_status x = true \/ dget (e_role e) i <> None.

Lemma raw_some_backed e i x : backed e -> known_status x = true \/ dget (e_role e) i <> None -> backed (mev (set_status_raw e (Some i) (Some x))).
Proof.
  intros [D H] K. split; [now apply set_raw_dicts|]. unfold mev. cbn. intros j y. rewrite dget_dset. destruct (String.eqb_spec j i) as [->|N]; [|apply H].
  intros E. injection E as <-. exact K.
Qed.
Lemma raw_none_backed e a : backed e -> backed (mev (set_status_raw e a None)).
Proof.
  intros [[D1 D2] H]. split; [now apply set_raw_dicts|]. destruct a as [i|]; [|exact H]. unfold set_status_raw. cbn [attendee_id]. unfold ddel.
  destruct (dget (e_state e) i) eqn:S; [|exact H]. cbn [e_role with_state]. destruct (dget (e_role e) i) eqn:R; unfold mev; cbn.
  - intros j x. rewrite !dget_drem by assumption. destruct (String.eqb j i); [discriminate|apply H].
  - intros j x. rewrite dget_drem by assumption. destruct (String.eqb j i); [discriminate|apply H].
Qed.
Lemma set_role_backed e a ro : backed e -> backed (mev (set_role e a ro)).
Proof.
  intros [D H]. split; [now apply set_role_dicts|]. unfold set_role. destruct (str_in ro roles); [|exact H]. destruct a as [i|]; [|exact H].
  unfold mev. cbn. intros j x X. rewrite dget_dset. destruct (String.eqb j i); [right; discriminate|now apply H].
Qed.
Lemma set_status_backed e a st : backed e -> backed (mev (set_status e a st)).
Proof.
  intros C. destruct st as [x|].
  - unfold set_status. destruct (str_in x statuses) eqn:K; [|exact C]. rewrite known_status_ok in K. destruct a as [i|]; [|exact C]. cbn [get_status attendee_id].
    unfold get_status. cbn [attendee_id rbind]. destruct (opt_str_eqb _ _); [exact C|]. apply mbind_pres; [|auto]. apply raw_some_backed; auto.
  - unfold set_status. destruct (get_status e a) as [old|x|]; try exact C. destruct (opt_str_eqb old None); [exact C|].
    apply mbind_pres; [now apply raw_none_backed|auto].
Qed.
Lemma organize_backed e i : backed e -> backed (organize e i).
Proof.
  intros [D R]. split; [now apply organize_dicts|]. intros j x. cbn. rewrite !dget_dset. destruct (String.eqb j i); [right; discriminate|apply R].
Qed.
Lemma entry_backed e a ro st : backed e -> backed (mev (entry_step e a ro st)).
Proof.
  intros C. unfold entry_step.
  apply (mbind_pres2 backed (fun e1 => backed e1 /\ forall i, a = Some i -> dget (e_role e1) i <> None)).
  - now apply set_role_backed.
  - intros E. split; [now apply set_role_backed|]. intros i ->. unfold set_role in *.
    destruct (str_in ro roles); [|discriminate]. unfold mev; cbn. rewrite dget_dset, String.eqb_refl. discriminate.
  - intros e1 [C1 H]. destruct st as [s|]; [|now apply raw_none_backed]. destruct a as [i|]; [|exact C1]. apply raw_some_backed; auto.
Qed.
Lemma keeps_backed : keeps backed (fun _ => True).
Proof.
  constructor.
  - intros u. split; [split; constructor|]. intros i ro. discriminate.
  - auto.
  - intros e [[D1 D2] R]. unfold backed, dicts_ok. rewrite allday_role, allday_state. auto.
  - intros sp e _. apply set_on_object_pres; auto using organize_backed, entry_backed.
  - intros l e. apply (invite_pres backed). intros e1 i [[D1 D2] R] _. split; [split; cbn; now apply dset_nodup|].
    intros j x. cbn. rewrite !dget_dset. destruct (String.eqb j i); [right; discriminate|apply R].
  - intros e a ro. apply set_role_backed.
Qed.
Lemma path_backed cf s : path cf (fun _ _ => True) s -> heap_all backed s.
Proof.
  intros H. induction H as [|s o _ IH _]; [constructor|]. apply (step_keeps keeps_backed); [|exact IH]. destruct o; cbn; auto.
  - apply set_status_backed. now apply (obj_P keeps_backed).
  - destruct parsed as [[vs|]| |]; auto. intros ? ? ? ? ? ?. exact I.
Qed.
Lemma reachable_backed cf s r : reachable cf s -> backed (obj s r).
Proof. intros [h H]. apply (obj_P keeps_backed). eapply path_backed. eapply history_path. exact H. Qed.

Lemma seen_look s r i : seen s r i = look (obj s r) i.
Proof. reflexivity. Qed.

Lemma off_it e i : ~ In i (on_it e) -> look e i = Person None None /\ e_organizer e <> Some i.
Proof.
  intros H. unfold on_it in H. unfold look. rewrite !in_app_iff in H.
  rewrite (proj2 (dget_none (e_state e) i)), (proj2 (dget_none (e_role e) i)) by tauto. split; [reflexivity|].
  intros E. rewrite E in H. cbn in H. tauto.
Qed.

Lemma odd_in e a ro st : In (a, ro, st) (odd_ones e) <-> exists i x, a = Some i /\ st = Some x /\ dget (e_state e) i = Some x /\ dget (e_role e) i = Some ro /\ known_status x = false.
Proof.
  unfold odd_ones. rewrite in_flat_map. split.
  - intros (i & _ & H). destruct (dget (e_state e) i) as [x|] eqn:D; [|destruct H]. destruct (dget (e_role e) i) as [ro'|] eqn:R; [|destruct H].
    destruct (known_status x) eqn:K; [destruct H|]. destruct H as [H|[]]. injection H as <- <- <-. exists i, x. auto.
  - intros (i & x & -> & -> & D & R & K). exists i. split; [apply dget_in in D; now apply (in_map fst) in D|]. rewrite D, R, K. now left.
Qed.

Lemma entries_run e : (forall i x, dget (e_role e) i = Some x -> known_role x = true) ->
  forall l x, (forall a ro st, In (a, ro, st) l -> exists i y, a = Some i /\ st = Some y /\ dget (e_state e) i = Some y /\ dget (e_role e) i = Some ro) ->
  snd (set_attendees x l) = Ok tt
  /\ forall j, look (fst (fst (set_attendees x l))) j = if existsb (fun en => match fst (fst en) with Some i => String.eqb i j | None => false end) l then look e j else look x j.
Proof.
  intros KR l. induction l as [|[[a ro] st] l IH]; intros x H; [split; reflexivity|].
  destruct (H a ro st (or_introl eq_refl)) as (i & y & -> & -> & D & R). specialize (KR i ro R). cbn [set_attendees]. fold (entry_step x (Some i) ro (Some y)).
  rewrite entry_step_ok by (apply str_in_iff; now rewrite known_role_ok). cbn [mbind].
  set (x1 := with_state _ _). destruct (IH x1) as [I1 I2]; [intros; apply H; now right|].
  destruct (set_attendees x1 l) as [[e2 n2] r2]. cbn [fst snd] in *. split; [exact I1|]. intros j. rewrite I2. cbn [existsb fst].
  destruct (existsb _ l); [now rewrite orb_true_r|]. rewrite orb_false_r. unfold x1, look. cbn. rewrite !dget_dset, (String.eqb_sym j i).
  destruct (String.eqb_spec i j) as [->|]; [now rewrite D, R|reflexivity].
Qed.

Lemma specify_ok e x : (forall i x, dget (e_role e) i = Some x -> known_role x = true) -> snd (set_on_object (spec_of e) x) = Ok tt
  /\ (forall i, look (fst (fst (set_on_object (spec_of e) x))) i = look e i \/ ((forall ro st, ~ In (Some i, ro, st) (odd_ones e))
        /\ (e_organizer e <> Some i -> look (fst (fst (set_on_object (spec_of e) x))) i = look x i))).
Proof.
  intros KR. rewrite set_on_object_eq. cbn [spec_of s_attendees s_organizer]. match goal with |- context [set_attendees ?y _] => set (x1 := y) end.
  destruct (entries_run e KR (odd_ones e) x1) as [E1 E2].
  { intros a ro st I. apply odd_in in I as (i & y & A & B & C & D & _). eauto 8. }
  split; [exact E1|]. intros i. rewrite E2. match goal with |- context [existsb ?f (odd_ones e)] => destruct (existsb f (odd_ones e)) eqn:X end; [now left|]. right. split.
  - intros ro st I. apply Bool.not_true_iff_false in X. apply X. apply existsb_exists. exists (Some i, ro, st). split; [exact I|apply String.eqb_refl].
  - intros N. unfold x1. destruct (e_organizer e) as [j|]; [|reflexivity]. unfold organize, look. cbn. rewrite !dget_dset.
    destruct (String.eqb_spec i j) as [->|]; [congruence|reflexivity].
Qed.

Lemma do_pcalls cf l : forall s, do_calls cf s (map pcall_op l) = (fst (call_all cf s l), map snd (snd (call_all cf s l))).
Proof.
  induction l as [|c l IH]; intros s; [reflexivity|]. cbn [map do_calls call_all]. destruct (step cf s (pcall_op c)) as [[s' n] x].
  rewrite IH. destruct (call_all cf s' l). reflexivity.
Qed.

Lemma do_calls_app cf a b : forall s, do_calls cf s (a ++ b) =
  (fst (do_calls cf (fst (do_calls cf s a)) b), snd (do_calls cf s a) ++ snd (do_calls cf (fst (do_calls cf s a)) b)).
Proof.
  induction a as [|c a IH]; intros s; [cbn; now destruct (do_calls cf s b)|]. cbn [app do_calls]. destruct (step cf s c) as [[s' n] r].
  rewrite IH. destruct (do_calls cf s' a) as [s2 h]. reflexivity.
Qed.

Lemma do_calls_reachable cf l : forall s, reachable cf s -> reachable cf (fst (do_calls cf s l)).
Proof.
  induction l as [|c l IH]; intros s R; [exact R|]. cbn [do_calls]. pose proof (reachable_step cf s c R) as R'. destruct (step cf s c) as [[s' n] r].
  specialize (IH s' R'). destruct (do_calls cf s' l). exact IH.
Qed.

Definition fine (l : list (res unit)) : Prop := Forall (fun x => x = Ok tt) l.

Lemma roles_known cf s r i x : reachable cf s -> p_role (seen s r i) = Some x -> known_role x = true.
Proof.
  intros R E. destruct (reachable_roles_ok cf s r R) as [_ H]. specialize (H i x E). rewrite <- known_role_ok. now apply str_in_iff.
Qed.

Lemma regained_refl s : regained s s.
Proof. unfold regained. repeat split; auto. Qed.
Lemma regained_trans a b c : regained a b -> regained b c -> regained a c.
Proof.
  intros (A1 & A2 & A3 & A4 & A5 & A6) (B1 & B2 & B3 & B4 & B5 & B6). split; [lia|]. split.
  { intros k K. destruct (A2 k K) as [X Y]. destruct (B2 k ltac:(lia)) as [X' Y']. split; [now apply (same_attrs_trans _ (obj b k))|]. intros i. now rewrite Y', Y. }
  split; [intros u; now rewrite B3|]. split; [intros i; now rewrite B4|]. split; [lia|]. intros c0 i C. rewrite B6 by lia. now apply A6.
Qed.

(** ** bringing all events back, and removing new ones *)
Lemma undo_one cf t r e e1 : reachable cf t -> (r < List.length (sys_heap t))%nat -> e_uid (obj t r) = e_uid e ->
  backed e -> (forall i x, dget (e_role e) i = Some x -> known_role x = true) ->
  (forall i, seen t r i = look e1 i) ->
  let m := do_calls cf t (undo_event r e e1) in
  fine (snd m) /\ List.length (sys_heap (fst m)) = List.length (sys_heap t) /\ sys_store (fst m) = sys_store t /\ sys_source (fst m) = sys_source t
  /\ sys_cals (fst m) = sys_cals t /\ same_attrs e (obj (fst m) r) /\ (forall i, seen (fst m) r i = look e i)
  /\ forall k, (k < List.length (sys_heap t))%nat -> k <> r -> same_attrs (obj t k) (obj (fst m) k) /\ forall i, seen (fst m) k i = seen t k i.
Proof.
  intros RT B U KS KR LT. unfold undo_event. cbn [do_calls]. pose proof (reachable_step cf t (OSpecify r (spec_of e)) RT) as R2. cbn [step] in R2 |- *.
  unfold on_event in R2 |- *. destruct (specify_ok e (obj t r) KR) as [OK LK]. pose proof (set_on_object_attrs (spec_of e) (obj t r)) as AT.
  destruct (set_on_object (spec_of e) (obj t r)) as [[e2 n2] x2]. unfold sst in R2. unfold mev in AT. cbn [fst snd] in *. subst x2.
  assert (LEN : forall l n (x : event), List.length (replace_nth n l x) = List.length l).
  { induction l as [|y l IH]; intros [|n] x; cbn; auto. }
  set (t2 := with_heap t (replace_nth r (sys_heap t) e2)) in *.
  rewrite do_pcalls. cbn [fst snd]. set (L := filter (ordinary e) (on_it e ++ on_it e1)).
  set (g := fun i => if ordinary e i then look e i else Person None None).
  assert (GE : flat_map (fun i => restore r i (look e i)) L = flat_map (fun i => restore r i (g i)) L).
  { assert (Q : forall i, In i L -> g i = look e i) by (intros i I; unfold L in I; apply filter_In in I as [_ I]; unfold g; now rewrite I).
    clearbody g L. clear -Q. induction L as [|i L IH]; [reflexivity|]. cbn [flat_map]. rewrite (Q i) by now left. f_equal. apply IH. intros j J. apply Q. now right. }
  rewrite GE. destruct (restore_run cf r g L t2 R2) as [S O].
  { cbn [t2 with_heap sys_heap]. now rewrite LEN. }
  { intros i. unfold g, ordinary. split; intros x; [|destruct (match dget (e_state e) i with Some x => known_status x | None => true end); [apply KR|discriminate]].
    destruct (dget (e_state e) i) as [y|] eqn:D; [destruct (known_status y) eqn:K|]; unfold look; cbn [p_status]; rewrite ?D; congruence. }
  destruct (C157_only cf (flat_map (fun i => restore r i (g i)) L) t2 R2) as (_ & H1 & H2 & H3 & H4 & H5 & _).
  set (t3 := fst (call_all cf t2 _)) in *.
  assert (O2 : forall k, obj t2 k = if Nat.eqb k r then e2 else obj t k).
  { intros k. unfold t2. rewrite obj_heap, replace_nth_get. rewrite (proj2 (Nat.ltb_lt _ _) B), andb_true_r. reflexivity. }
  assert (L2 : List.length (sys_heap t2) = List.length (sys_heap t)) by (unfold t2; cbn [with_heap sys_heap]; now rewrite LEN).
  split; [constructor; [reflexivity|]; apply Forall_map; exact O|]. split; [now rewrite H1, L2|]. do 3 (split; [assumption|]). split; [|split].
  - eapply same_attrs_trans; [|apply H5]. rewrite O2, Nat.eqb_refl. unfold same_attrs.
    cbn [spec_of s_dtstart s_duration s_title s_description s_location s_status s_recurrence s_allday s_categories
          s_transparent s_access s_document s_organizer] in AT. destruct AT as (AU & AT). split; [congruence|exact AT].
  - intros i. rewrite S by now rewrite L2. rewrite Nat.eqb_refl. cbn [andb]. destruct (str_in i L) eqn:I.
    { apply str_in_iff, filter_In in I as [_ I]. unfold g. now rewrite I. }
    assert (NI : ~ In i L) by (intros X; apply str_in_iff in X; congruence). unfold L in NI. rewrite filter_In, in_app_iff in NI.
    rewrite seen_look, O2, Nat.eqb_refl. destruct (LK i) as [LK1|[LK1 LK2]]; [exact LK1|].
    destruct (ordinary e i) eqn:OR.
    + destruct (off_it e i ltac:(tauto)) as [F1 F2]. destruct (off_it e1 i ltac:(tauto)) as [F3 _]. rewrite LK2 by exact F2. rewrite <- seen_look, LT. congruence.
    + exfalso. unfold ordinary in OR. destruct (dget (e_state e) i) as [x|] eqn:D; [|discriminate]. destruct KS as [_ KS]. destruct (KS i x D) as [Q|Q]; [congruence|].
      destruct (dget (e_role e) i) as [ro|] eqn:RO; [|congruence]. apply (LK1 ro (Some x)). apply odd_in. exists i, x. auto.
  - intros k K N. split.
    + eapply same_attrs_trans; [|apply H5]. rewrite O2, (proj2 (Nat.eqb_neq _ _) N). apply same_attrs_refl.
    + intros i. rewrite S by now rewrite L2. rewrite (proj2 (Nat.eqb_neq _ _) N). cbn [andb]. rewrite seen_look, O2, (proj2 (Nat.eqb_neq _ _) N). reflexivity.
Qed.

Lemma undo_event_ok cf s r (f : event -> mut) t : reachable cf s -> (r < List.length (sys_heap s))%nat ->
  e_uid (fst (fst (f (obj s r)))) = e_uid (obj s r) ->
  reachable cf t -> regained (sst (on_event s r f)) t ->
  let m := do_calls cf t (undo_event r (obj s r) (fst (fst (f (obj s r))))) in
  regained s (fst m) /\ fine (snd m).
Proof.
  intros R B U RT. unfold on_event. destruct (f (obj s r)) as [[e1 n1] x1]. cbn [fst snd] in U |- *. unfold sst. cbn [fst].
  intros (G1 & G2 & G3 & G4 & G5 & G6). cbn [with_heap sys_heap sys_source sys_cals] in *.
  assert (LEN : forall l n (x : event), List.length (replace_nth n l x) = List.length l).
  { induction l as [|y l IH]; intros [|n] x; cbn; auto. }
  rewrite LEN in G1, G2.
  assert (O1 : forall k, obj (with_heap s (replace_nth r (sys_heap s) e1)) k = if Nat.eqb k r then e1 else obj s k).
  { intros k. rewrite obj_heap, replace_nth_get. rewrite (proj2 (Nat.ltb_lt _ _) B), andb_true_r. reflexivity. }
  destruct (G2 r B) as [A1 A2]. rewrite O1, Nat.eqb_refl in A1.
  destruct (undo_one cf t r (obj s r) e1 RT) as (K1 & K2 & K3 & K4 & K5 & K6 & K7 & K8).
  { lia. }
  { destruct A1 as [A1 _]. congruence. }
  { exact (reachable_backed cf s r R). }
  { intros i x X. exact (roles_known cf s r i x R X). }
  { intros i. rewrite A2, seen_look, O1, Nat.eqb_refl. reflexivity. }
  set (m := do_calls cf t _) in *. split; [|exact K1]. split; [lia|]. split; [|split; [|split; [|split]]].
  - intros k K. destruct (Nat.eq_dec k r) as [->|N]; [split; [exact K6|intros i; now rewrite K7]|]. destruct (K8 k ltac:(lia) N) as [X Y].
    destruct (G2 k K) as [X' Y']. rewrite O1, (proj2 (Nat.eqb_neq _ _) N) in X'. split; [now apply (same_attrs_trans _ (obj t k))|].
    intros i. rewrite Y, Y', seen_look, O1, (proj2 (Nat.eqb_neq _ _) N). reflexivity.
  - intros u. unfold get_event. rewrite K3. apply G3.
  - intros i. rewrite K4. apply G4.
  - rewrite K5. exact G5.
  - intros c i. unfold cal. rewrite K5. apply G6.
Qed.

Definition undo_events (s s' : system) (n : nat) : list op := flat_map (fun k => undo_event k (obj s k) (obj s' k)) (seq 0 n).

Lemma undo_events_ok cf s s' t n : reachable cf s -> reachable cf t ->
  (n <= List.length (sys_heap s))%nat -> (n <= List.length (sys_heap t))%nat ->
  (forall k, (k < n)%nat -> e_uid (obj t k) = e_uid (obj s k) /\ forall i, seen t k i = seen s' k i) ->
  let m := do_calls cf t (undo_events s s' n) in
  fine (snd m) /\ List.length (sys_heap (fst m)) = List.length (sys_heap t) /\ sys_store (fst m) = sys_store t /\ sys_source (fst m) = sys_source t
  /\ sys_cals (fst m) = sys_cals t
  /\ (forall k, (k < n)%nat -> same_attrs (obj s k) (obj (fst m) k) /\ forall i, seen (fst m) k i = seen s k i)
  /\ forall k, (k < List.length (sys_heap t))%nat -> (n <= k)%nat -> same_attrs (obj t k) (obj (fst m) k) /\ forall i, seen (fst m) k i = seen t k i.
Proof.
  intros R RT. induction n as [|n IH]; intros B1 B2 H; cbv zeta.
  { cbn. do 5 (split; [try reflexivity; constructor|]). split; [lia|]. intros k _ _. split; [apply same_attrs_refl|reflexivity]. }
  destruct (IH ltac:(lia) ltac:(lia) ltac:(intros k K; apply H; lia)) as (I1 & I2 & I3 & I4 & I5 & I6 & I7). clear IH.
  unfold undo_events in *. rewrite seq_S, flat_map_app. cbn [flat_map Nat.add]. rewrite app_nil_r, do_calls_app. cbn [fst snd].
  pose proof (do_calls_reachable cf (flat_map (fun k => undo_event k (obj s k) (obj s' k)) (seq 0 n)) t RT) as R1.
  set (m1 := do_calls cf t (flat_map _ (seq 0 n))) in *. destruct (H n ltac:(lia)) as (U & L). destruct (I7 n ltac:(lia) ltac:(lia)) as [J1 J2].
  destruct (undo_one cf (fst m1) n (obj s n) (obj s' n) R1) as (K1 & K2 & K3 & K4 & K5 & K6 & K7 & K8).
  { rewrite I2. lia. }
  { destruct J1 as [J1 _]. congruence. }
  { exact (reachable_backed cf s n R). }
  { intros i x X. exact (roles_known cf s n i x R X). }
  { intros i. rewrite J2, L. reflexivity. }
  set (m2 := do_calls cf (fst m1) _) in *. rewrite I2 in K8.
  split; [apply Forall_app; now split|]. do 4 (split; [congruence|]). split.
  - intros k K. destruct (Nat.eq_dec k n) as [->|N]; [split; [exact K6|intros i; now rewrite K7]|].
    destruct (I6 k ltac:(lia)) as [X Y]. destruct (K8 k ltac:(lia) N) as [X' Y']. split; [now apply (same_attrs_trans _ (obj (fst m1) k))|]. intros i. now rewrite Y', Y.
  - intros k K N. destruct (I7 k K ltac:(lia)) as [X Y]. destruct (K8 k K ltac:(lia)) as [X' Y']. split; [now apply (same_attrs_trans _ (obj (fst m1) k))|]. intros i. now rewrite Y', Y.
Qed.

Lemma deletes_ok cf l : forall t, reachable cf t -> NoDup (map fst l) ->
  (forall u r, In (u, r) l -> dget (sys_store t) u = Some r) ->
  let m := do_calls cf t (map (fun kv : string * nat => ODelete (snd kv)) l) in
  fine (snd m) /\ sys_heap (fst m) = sys_heap t /\ sys_source (fst m) = sys_source t /\ sys_cals (fst m) = sys_cals t
  /\ forall u, dget (sys_store (fst m)) u = if str_in u (map fst l) then None else dget (sys_store t) u.
Proof.
  induction l as [|[u r] l IH]; intros t R N H; cbv zeta; [cbn; repeat split; constructor|]. cbn [map snd do_calls].
  pose proof (reachable_step cf t (ODelete r) R) as R'. cbn [step] in R' |- *. unfold delete_event in *.
  pose proof (H u r (or_introl eq_refl)) as D. destruct (reachable_store cf t R) as [NS I]. destruct (I u r D) as (_ & U & _). rewrite U in *.
  unfold ddel in *. rewrite D in *. unfold sst in R'. cbn [fst snd map] in *. inversion N as [|? ? N1 N2]; subst.
  destruct (IH _ R' N2) as (A1 & A2 & A3 & A4 & A5).
  { intros v q V. cbn [with_store sys_store]. rewrite dget_drem by exact NS. destruct (String.eqb_spec v (e_uid (obj t r))) as [->|NE]; [|apply H; now right].
    exfalso. apply N1. now apply (in_map fst) in V. }
  destruct (do_calls cf (with_store t (drem (sys_store t) (e_uid (obj t r)))) (map (fun kv => ODelete (snd kv)) l)) as [m h]. cbn [fst snd] in *.
  split; [now constructor|]. do 3 (split; [assumption|]). intros v. rewrite A5. cbn [with_store sys_store]. rewrite dget_drem by exact NS.
  unfold str_in. cbn [existsb map fst]. fold (str_in v (map fst l)). destruct (str_in v (map fst l)); [now rewrite orb_true_r|]. rewrite orb_false_r. reflexivity.
Qed.

Lemma undo_growth cf s s' : reachable cf s -> reachable cf s' -> grows s s' ->
  (forall u r, dget (sys_store s) u = Some r -> dget (sys_store s') u = Some r) ->
  (forall u r, dget (sys_store s') u = Some r -> dget (sys_store s) u = None -> (List.length (sys_heap s) <= r)%nat) ->
  sys_source s' = sys_source s -> sys_cals s' = sys_cals s ->
  exists u, forall t, reachable cf t -> regained s' t -> regained s (fst (do_calls cf t u)) /\ fine (snd (do_calls cf t u)).
Proof.
  intros R R' [G1 G2] S1 S2 E1 E2. set (n := List.length (sys_heap s)) in *.
  set (l := filter (fun kv : string * nat => Nat.leb n (snd kv)) (sys_store s')).
  exists (undo_events s s' n ++ map (fun kv : string * nat => ODelete (snd kv)) l). intros t RT (A1 & A2 & A3 & A4 & A5 & A6).
  destruct (reachable_store cf s R) as [NS IS]. destruct (reachable_store cf s' R') as [NS' IS'].
  assert (GS : forall u, dget (sys_store t) u = dget (sys_store s') u).
  { intros u. specialize (A3 u). unfold get_event in A3. destruct (dget (sys_store t) u), (dget (sys_store s') u); congruence. }
  destruct (undo_events_ok cf s s' t n R RT (le_n _) ltac:(lia)) as (I1 & I2 & I3 & I4 & I5 & I6 & _).
  { intros k K. destruct (A2 k ltac:(lia)) as [(X & _) Y]. split; [rewrite X; now apply G2|exact Y]. }
  rewrite do_calls_app. cbn [fst snd]. pose proof (do_calls_reachable cf (undo_events s s' n) t RT) as R1. set (m1 := do_calls cf t (undo_events s s' n)) in *.
  assert (LI : forall u r, In (u, r) l <-> dget (sys_store s') u = Some r /\ (n <= r)%nat).
  { intros u r. unfold l. rewrite filter_In. cbn [snd]. rewrite Nat.leb_le. split; intros [X Y]; (split; [|exact Y]); [now apply in_dget|now apply dget_in]. }
  assert (NL : NoDup (map fst l)).
  { unfold l, dkeys in *. clear -NS'. induction (sys_store s') as [|[u r] d IH]; [constructor|]. cbn [filter map fst snd] in *. inversion NS' as [|? ? X Y]; subst.
    destruct (Nat.leb n r); [|now apply IH]. cbn [map fst]. constructor; [|now apply IH]. intros Q. apply X. apply in_map_iff in Q as (kv & <- & Q).
    apply filter_In in Q as [Q _]. now apply in_map. }
  destruct (deletes_ok cf l (fst m1) R1 NL) as (D1 & D2 & D3 & D4 & D5).
  { intros u r X. apply LI in X as [X _]. rewrite I3, GS. exact X. }
  set (m2 := do_calls cf (fst m1) _) in *. split; [|apply Forall_app; now split].
  assert (OB : forall k, obj (fst m2) k = obj (fst m1) k) by (intros k; unfold obj; now rewrite D2).
  split; [rewrite D2, I2; fold n; lia|]. split; [|split; [|split; [|split]]].
  - intros k K. rewrite OB. destruct (I6 k K) as [X Y]. split; [exact X|]. intros i. rewrite <- Y, !seen_look. now rewrite OB.
  - intros u. unfold get_event. rewrite D5, I3, GS. destruct (dget (sys_store s) u) as [r|] eqn:D.
    + rewrite (S1 u r D). replace (str_in u (map fst l)) with false; [reflexivity|]. symmetry. destruct (str_in u (map fst l)) eqn:X; [|reflexivity]. exfalso.
      apply str_in_iff in X. apply in_map_iff in X as ([v q] & V & X). cbn in V. subst v. apply LI in X as [X Y]. rewrite (S1 u r D) in X. injection X as <-.
      destruct (IS u r D) as (Z & _). fold n in Z. lia.
    + destruct (str_in u (map fst l)) eqn:X; [reflexivity|]. destruct (dget (sys_store s') u) as [r|] eqn:D'; [|reflexivity]. exfalso.
      pose proof (proj2 (LI u r) (conj D' (S2 u r D' D))) as Y. apply (in_map fst) in Y. apply str_in_iff in Y. cbn [fst] in Y. congruence.
  - intros i. rewrite D3, I4, A4, E1. reflexivity.
  - rewrite D4, I5. rewrite E2 in A5. exact A5.
  - intros c i C. unfold cal at 1. rewrite D4, I5. fold (cal t c). rewrite A6 by now rewrite E2. unfold cal. now rewrite E2.
Qed.

(** one call can be taken back, at any later moment at which everything is again
    as the call had left it *)
Lemma undo_step cf s o : reachable cf s -> revocable cf s o ->
  exists u, forall t, reachable cf t -> regained (sst (step cf s o)) t -> regained s (fst (do_calls cf t u)) /\ fine (snd (do_calls cf t u)).
Proof.
  intros R V.
  assert (EV : forall r f, sst (step cf s o) = sst (on_event s r f) -> (r < List.length (sys_heap s))%nat ->
    exists u, forall t, reachable cf t -> regained (sst (step cf s o)) t -> regained s (fst (do_calls cf t u)) /\ fine (snd (do_calls cf t u))).
  { intros r f E B. exists (undo_event r (obj s r) (fst (fst (f (obj s r))))). intros t RT G. rewrite E in G. apply undo_event_ok; auto.
    destruct (step_tracks cf s o (reachable_store cf s R)) as (_ & (_ & GU) & _). specialize (GU r B). rewrite E in GU. revert GU.
    unfold on_event. destruct (f (obj s r)) as [[e n] x]. unfold sst. cbn [fst]. rewrite obj_heap, replace_nth_get, Nat.eqb_refl, (proj2 (Nat.ltb_lt _ _) B). auto. }
  assert (ID : sst (step cf s o) = s ->
    exists u, forall t, reachable cf t -> regained (sst (step cf s o)) t -> regained s (fst (do_calls cf t u)) /\ fine (snd (do_calls cf t u))).
  { intros E. exists []. intros t RT G. rewrite E in G. split; [exact G|constructor]. }
  assert (CR : forall uid sp now, sst (step cf s o) = sst (create_event cf s uid sp now) -> has_event s (new_id cf s uid now) = false ->
    exists u, forall t, reachable cf t -> regained (sst (step cf s o)) t -> regained s (fst (do_calls cf t u)) /\ fine (snd (do_calls cf t u))).
  { intros uid sp now E H. destruct (create_spec cf s uid sp now) as [(r & e & C & -> & _ & UE)|(C & _)]; [|rewrite C in E; now apply ID].
    fold (new_id cf s uid now) in C, UE. exists [ODelete (List.length (sys_heap s))]. intros t RT G. rewrite E, C in G. unfold sst in G. cbn [fst] in G.
    destruct G as (G1 & G2 & G3 & G4 & G5 & G6). cbn [sys_heap sys_source sys_cals] in *. rewrite app_length in G1, G2. cbn [List.length] in G1, G2.
    assert (OB : forall k, (k < List.length (sys_heap s))%nat -> obj (mkSys (sys_heap s ++ [e]) (dset (sys_store s) (new_id cf s uid now) (List.length (sys_heap s))) (sys_source s) (sys_cals s)) k = obj s k)
      by (intros k K; unfold obj; cbn [sys_heap]; now apply app_obj).
    assert (UT : e_uid (obj t (List.length (sys_heap s))) = new_id cf s uid now).
    { destruct (G2 (List.length (sys_heap s)) ltac:(lia)) as [(X & _) _]. rewrite X. unfold obj. cbn [sys_heap]. rewrite nth_middle. exact UE. }
    assert (GS : forall u, dget (sys_store t) u = dget (dset (sys_store s) (new_id cf s uid now) (List.length (sys_heap s))) u).
    { intros u. specialize (G3 u). unfold get_event in G3. cbn [sys_store] in G3. destruct (dget (sys_store t) u), (dget (dset _ _ _) u); congruence. }
    cbn [do_calls step]. unfold delete_event. rewrite UT. unfold ddel. rewrite GS, dget_dset, String.eqb_refl. cbn [fst snd].
    split; [|repeat constructor]. split; [cbn; lia|]. split; [|split; [|split; [exact G4|split; [exact G5|exact G6]]]].
    - intros k K. destruct (G2 k ltac:(lia)) as [X Y]. rewrite OB in X by exact K. split; [exact X|]. intros i. specialize (Y i). rewrite !seen_look in Y. rewrite OB in Y by exact K. exact Y.
    - intros u. unfold get_event. cbn [with_store sys_store]. rewrite dget_drem by apply (reachable_store cf t RT). rewrite GS, dget_dset.
      destruct (String.eqb_spec u (new_id cf s uid now)) as [->|]; [|reflexivity]. rewrite has_event_dget in H. now destruct (dget (sys_store s) _). }
  assert (LC : forall l n (x : dict unit), List.length (replace_nth n l x) = List.length l).
  { induction l as [|y l IH]; intros [|n] x; cbn; auto. }
  assert (NC : forall w c, reachable cf w -> NoDup (dkeys (cal w c))).
  { intros w c RW. destruct (C120_itself cf w RW) as (_ & _ & _ & F). unfold cal. destruct (Nat.lt_ge_cases c (List.length (sys_cals w))) as [B|B].
    - assert (I : In (nth c (sys_cals w) []) (sys_cals w)) by now apply nth_In. revert I. generalize (nth c (sys_cals w) []).
      assert (Q : forall l1 l2 : list (dict unit), Forall2 same_dict l1 l2 -> forall d, In d l1 -> NoDup (dkeys d)).
      { intros l1 l2 F0. induction F0 as [|x y l1 l2 [X _] F0 IH]; intros d; [intros []|intros [<-|I]; auto]. }
      exact (Q _ _ F).
    - rewrite nth_overflow by exact B. constructor. }
  (* the members of one calendar are changed and t is given them back *)
  assert (CAL : forall c d t op', reachable cf t -> (c < List.length (sys_cals s))%nat ->
    sst (step cf s o) = with_cals s (replace_nth c (sys_cals s) d) -> regained (sst (step cf s o)) t ->
    (forall d', (forall i, dget d' i = dget d i) -> cal t c = d' ->
       exists d'', step cf t op' = (with_cals t (replace_nth c (sys_cals t) d''), [], Ok tt) /\ forall i, dget d'' i = dget (cal s c) i) ->
    regained s (fst (do_calls cf t [op'])) /\ fine (snd (do_calls cf t [op']))).
  { intros c d t op' RT B E G H. rewrite E in G. destruct G as (G1 & G2 & G3 & G4 & G5 & G6). cbn [with_cals sys_heap sys_source sys_cals] in *. rewrite LC in G5, G6.
    assert (CC : forall k, cal (with_cals s (replace_nth c (sys_cals s) d)) k = if Nat.eqb k c then d else cal s k).
    { intros k. unfold cal. cbn [with_cals sys_cals]. rewrite replace_nth_get, (proj2 (Nat.ltb_lt _ _) B), andb_true_r. reflexivity. }
    destruct (H (cal t c)) as (d'' & S & D); [|reflexivity|].
    { intros i. specialize (G6 c i B). rewrite CC, Nat.eqb_refl in G6. exact G6. }
    cbn [do_calls]. rewrite S. cbn [fst snd]. split; [|repeat constructor]. split; [exact G1|]. split; [exact G2|]. split; [exact G3|]. split; [exact G4|].
    cbn [with_cals sys_cals]. rewrite LC. split; [exact G5|]. intros k i K. unfold cal at 1. cbn [with_cals sys_cals]. rewrite replace_nth_get.
    rewrite (proj2 (Nat.ltb_lt c (List.length (sys_cals t)))) by lia. rewrite andb_true_r. destruct (Nat.eqb_spec k c) as [->|N]; [apply D|].
    fold (cal t k). rewrite G6 by exact K. rewrite CC. now rewrite (proj2 (Nat.eqb_neq _ _) N). }
  destruct o; cbn [revocable] in V; try contradiction.
  - apply (CR uid sp now); [cbn [step]; now rewrite drop_sst|exact V].
  - apply (CR None (with_spec_organizer sp i) now); [cbn [step]; now rewrite drop_sst|exact V].
  - eapply EV; [reflexivity|exact V].
  - eapply EV; [reflexivity|exact V].
  - eapply EV; [reflexivity|exact V].
  - eapply EV; [reflexivity|exact V].
  - eapply EV; [reflexivity|exact V].
  - eapply EV; [reflexivity|exact V].
  - destruct (dget (sys_source s) i) as [[n0 t0]|] eqn:D; [|congruence]. exists [OAttendee i n0 t0]. intros t RT (G1 & G2 & G3 & G4 & G5 & G6).
    cbn [do_calls step sret fst snd]. split; [|repeat constructor]. split; [exact G1|]. split; [exact G2|]. split; [exact G3|].
    split; [|split; [exact G5|exact G6]]. intros j. unfold create_attendee. cbn [with_source sys_source]. rewrite dget_dset.
    destruct (String.eqb_spec j i) as [->|N]; [now symmetry|]. rewrite G4. change (sys_source (sst (step cf s (OAttendee i name typ)))) with (dset (sys_source s) i (name, typ)). rewrite dget_dset.
    now rewrite (proj2 (String.eqb_neq _ _) N).
  - exists []. intros t RT (G1 & G2 & G3 & G4 & G5 & G6). split; [|constructor]. cbn [do_calls fst]. cbn [step sret sst fst] in *. unfold sst, sret in *. cbn [fst with_cals sys_cals] in *.
    rewrite app_length in G5, G6. cbn [List.length] in G5, G6. repeat (split; [assumption|]). split; [lia|]. intros c i C. rewrite G6 by lia. unfold cal. cbn [sys_cals with_cals]. now rewrite app_nth1.
  - destruct a as [i|]; [|now apply ID]. destruct (dget (cal s c) i) as [[]|] eqn:D.
    + exists []. intros t RT G. split; [|constructor]. cbn [do_calls fst]. eapply regained_trans; [|exact G]. cbn [step add_attendee attendee_id sret]. unfold sst, sret. cbn [fst].
      replace (dset (cal s c) i tt) with (cal s c) by (symmetry; now apply dset_same). repeat split; auto; cbn [with_cals sys_cals]; rewrite ?LC; auto.
      intros c0 j C. unfold cal at 1. cbn [with_cals sys_cals]. rewrite replace_nth_get, (proj2 (Nat.ltb_lt _ _) V), andb_true_r. now destruct (Nat.eqb_spec c0 c) as [->|].
    + exists [ORemoveAttendee c (Some i)]. intros t RT G. apply (CAL c (dset (cal s c) i tt) t); auto. intros d' D' E. exists (drem (cal t c) i). split.
      * cbn [step remove_attendee attendee_id rbind]. unfold remove_attendee. cbn [attendee_id rbind]. unfold ddel. rewrite E, D', dget_dset, String.eqb_refl. reflexivity.
      * intros j. rewrite dget_drem by now apply NC. rewrite E, D', dget_dset. destruct (String.eqb_spec j i) as [->|]; [now symmetry|reflexivity].
  - destruct a as [i|]; [|now apply ID]. destruct (dget (cal s c) i) as [[]|] eqn:D.
    + exists [OAddAttendee c (Some i)]. intros t RT G. apply (CAL c (drem (cal s c) i) t); auto.
      * cbn [step]. unfold remove_attendee. cbn [attendee_id rbind]. unfold ddel. now rewrite D.
      * intros d' D' E. exists (dset (cal t c) i tt). split; [reflexivity|]. intros j. rewrite dget_dset, E, D', dget_drem by now apply NC.
        destruct (String.eqb_spec j i) as [->|]; [now symmetry|reflexivity].
    + apply ID. cbn [step]. unfold remove_attendee. cbn [attendee_id rbind]. unfold ddel. now rewrite D.
  - rename V into K. pose proof (reachable_store cf s R) as RS. destruct (step_tracks cf s (OImport c parsed p cr sync) RS) as (_ & GR & _).
    destruct (import_frame cf s c parsed p cr sync RS) as (s1 & del & (_ & F2 & F3 & _ & F5 & F6) & X1 & X2 & X3 & X4 & _). cbn [step] in *.
    apply undo_growth; auto.
    + apply (reachable_step cf s (OImport c parsed p cr sync) R).
    + intros u r D. specialize (K u). rewrite !has_event_dget, D, X4 in K. rewrite X4. destruct (str_in u del); [now specialize (K eq_refl)|]. now apply F2.
    + intros u r D N. rewrite X4 in D. destruct (str_in u del); [discriminate|]. now apply (F3 u r).
    + now rewrite X2.
    + now rewrite X3.
Qed.

(** ** the theorems *)
(** Whatever calls were made, if none of them deletes an event, registers somebody
    new or replaces an event there are further calls, all of which succeed, after
    which everything there was is as it was. *)
Theorem C159_taken_back : forall cf l s, reachable cf s -> all_revocable cf s l ->
  exists u, let m := do_calls cf (fst (do_calls cf s l)) u in regained s (fst m) /\ fine (snd m).
Proof.
  assert (X : forall cf l s, reachable cf s -> all_revocable cf s l -> exists u, forall t, reachable cf t -> regained (fst (do_calls cf s l)) t ->
    regained s (fst (do_calls cf t u)) /\ fine (snd (do_calls cf t u))).
  { intros cf l. induction l as [|o l IH]; intros s R V; [exists []; intros t _ G; split; [exact G|constructor]|]. destruct V as [V1 V2].
    destruct (undo_step cf s o R V1) as (u1 & U1). pose proof (reachable_step cf s o R) as R1. destruct (IH _ R1 V2) as (u2 & U2).
    exists (u2 ++ u1). intros t RT G. cbn [do_calls] in G. destruct (step cf s o) as [[s1 n] r] eqn:E. unfold sst in *. cbn [fst] in *.
    assert (G' : regained (fst (do_calls cf s1 l)) t) by (destruct (do_calls cf s1 l); exact G). destruct (U2 t RT G') as [A1 A2].
    rewrite do_calls_app. cbn [fst snd]. pose proof (do_calls_reachable cf u2 t RT) as R2. destruct (U1 _ R2 A1) as [B1 B2].
    split; [exact B1|apply Forall_app; now split]. }
  intros cf l s R V. destruct (X cf l s R V) as (u & U). exists u. apply U; [now apply do_calls_reachable|apply regained_refl].
Qed.
Print Assumptions C159_taken_back.

(** And then everything that can be asked is answered as it was. *)
Theorem C159_answers : forall cf s t, reachable cf s -> reachable cf t -> regained s t ->
  (forall r, (r < List.length (sys_heap s))%nat -> event_alike (obj s r) (obj t r))
  /\ (forall p c, ends_alike (listed_alike event_alike) (get_events (stored s) p c) (get_events (stored t) p c))
  /\ (forall F p c, ends_alike (listed_alike occ_alike) (get_occurrences F (stored s) p c) (get_occurrences F (stored t) p c))
  /\ (forall F p c, ends_alike (listed_alike occ_alike) (get_occurrences_segmented F (stored s) p c) (get_occurrences_segmented F (stored t) p c))
  /\ (forall F a begins ends tb te, ends_alike eq (get_blocked F (stored s) a begins ends tb te) (get_blocked F (stored t) a begins ends tb te))
  /\ (forall F a begins ends tb te m, ends_alike eq (get_free F (stored s) a begins ends tb te m) (get_free F (stored t) a begins ends tb te m))
  /\ (forall c, (c < List.length (sys_cals s))%nat ->
        ends_alike (@Permutation attendee) (cal_attendees s c) (cal_attendees t c)
        /\ (forall p cr, ends_alike (listed_alike event_alike) (cal_events s c p cr) (cal_events t c p cr))
        /\ (forall p cr, ends_alike (@Permutation vevent) (export_cal s c p cr) (export_cal t c p cr))).
Proof.
  intros cf s t R RT (G1 & G2 & G3 & G4 & G5 & G6).
  destruct (C120_itself cf s R) as (XH & XS & XR & XC). destruct (C120_itself cf t RT) as (YH & YS & YR & YC).
  assert (EA : forall r, (r < List.length (sys_heap s))%nat -> event_alike (obj s r) (obj t r)).
  { intros r K. destruct (G2 r K) as [A L]. apply C120_event. unfold same_attrs in A.
    split; [decompose [and] A; repeat split; symmetry; assumption|].
    destruct (reachable_roles_ok cf s r R) as [[D1 D2] _]. destruct (reachable_roles_ok cf t r RT) as [[D3 D4] _].
    split; apply same_intro; try assumption; intros i; specialize (L i); unfold seen in L; congruence. }
  set (w := mkSys (firstn (List.length (sys_heap s)) (sys_heap t)) (sys_store t) (sys_source t) (firstn (List.length (sys_cals s)) (sys_cals t))).
  assert (ND : forall l1 l2 : list (dict unit), Forall2 same_dict l1 l2 -> forall d, In d l1 -> NoDup (dkeys d)).
  { intros l1 l2 F0. induction F0 as [|x y l1 l2 [X _] F0 IH]; intros d; [intros []|intros [<-|I]; auto]. }
  assert (NTH : forall A (Q : A -> A -> Prop) d l1 l2, List.length l1 = List.length l2 ->
    (forall k, (k < List.length l1)%nat -> Q (nth k l1 d) (nth k l2 d)) -> Forall2 Q l1 l2).
  { intros A Q d l1. induction l1 as [|x l1 IH]; intros [|y l2] E H; try discriminate; constructor; [apply (H 0%nat); cbn; lia|].
    apply IH; [now injection E|]. intros k K. apply (H (S k)). cbn. lia. }
  assert (FN : forall A (l : list A) n k d, (k < n)%nat -> nth k (firstn n l) d = nth k l d).
  { intros A l. induction l as [|x l IH]; intros [|n] [|k] d K; try reflexivity; try lia. cbn. apply IH. lia. }
  assert (GS : forall u, dget (sys_store s) u = dget (sys_store t) u).
  { intros u. specialize (G3 u). unfold get_event in G3. destruct (dget (sys_store t) u), (dget (sys_store s) u); congruence. }
  destruct (reachable_store cf s R) as [NS IS]. destruct (reachable_store cf t RT) as [NT _].
  assert (SA : sys_alike s w).
  { split; [|split; [|split]].
    - apply (NTH _ _ (blank "")); [cbn [w sys_heap]; rewrite firstn_length; lia|]. intros k K. cbn [w sys_heap]. rewrite FN by exact K. now apply EA.
    - apply same_intro; auto.
    - apply same_intro; [apply XR|apply YR|]. intros k. now rewrite G4.
    - apply (NTH _ _ []); [cbn [w sys_cals]; rewrite firstn_length; symmetry; apply Nat.min_l; exact G5|]. intros k K. cbn [w sys_cals]. rewrite FN by exact K. apply same_intro.
      + apply (ND _ _ XC). now apply nth_In.
      + apply (ND _ _ YC). apply nth_In. exact (Nat.lt_le_trans _ _ _ K G5).
      + intros i. symmetry. now apply G6. }
  assert (ST : stored w = stored t).
  { unfold stored. cbn [w sys_store]. apply map_ext_in. intros [u r] I. cbn [snd]. unfold obj. cbn [w sys_heap]. apply FN.
    apply in_dget in I; [|exact NT]. rewrite <- GS in I. now apply (IS u r). }
  assert (CA : forall c, (c < List.length (sys_cals s))%nat -> cal w c = cal t c) by (intros c C; unfold cal; cbn [w sys_cals]; now apply FN).
  assert (CT : forall c, (c < List.length (sys_cals s))%nat -> cal_attendees w c = cal_attendees t c) by (intros c C; unfold cal_attendees; now rewrite CA).
  assert (CE : forall c p cr, (c < List.length (sys_cals s))%nat -> cal_events w c p cr = cal_events t c p cr)
    by (intros c p cr C; unfold cal_events; now rewrite CT, ST).
  destruct (C120_queries s w SA) as (_ & _ & _ & Q1 & Q2 & Q3 & Q4 & Q5 & Q6 & Q7 & _ & _ & Q8 & _). rewrite ST in *.
  split; [exact EA|]. split; [exact Q1|]. split; [exact Q2|]. split; [exact Q3|]. split; [intros; now apply Q4|]. split; [intros; now apply Q5|].
  intros c C. split; [rewrite <- CT by exact C; apply Q6|]. split; [intros p cr; rewrite <- CE by exact C; apply Q7|].
  intros p cr. specialize (Q8 c p cr). unfold export_cal in *. now rewrite CE in Q8 by exact C.
Qed.
Print Assumptions C159_answers.

(** What is not on the list is excluded for a reason: an event object that has
    left the storage is never stored again, and somebody registered stays. *)
Theorem C159_gone : forall cf s r, reachable cf s -> (r < List.length (sys_heap s))%nat ->
  (forall u, get_event s u <> Ok r) -> forall l u, get_event (fst (do_calls cf s l)) u <> Ok r.
Proof.
  assert (ST : forall cf s o u r, reachable cf s -> (r < List.length (sys_heap s))%nat ->
    dget (sys_store (sst (step cf s o))) u = Some r -> dget (sys_store s) u = Some r).
  { intros cf s o u r R B. pose proof (reachable_store cf s R) as RS.
    assert (CR : forall uid sp now, dget (sys_store (sst (drop (create_event cf s uid sp now)))) u = Some r -> dget (sys_store s) u = Some r).
    { intros uid sp now. rewrite drop_sst. destruct (create_spec cf s uid sp now) as [(q & e & C & -> & _)|(C & _)]; rewrite C; [|auto].
      unfold sst. cbn [fst sys_store]. rewrite dget_dset. destruct (String.eqb u _); [|auto]. intros X. injection X as <-. lia. }
    assert (OE : forall k f, sys_store (sst (on_event s k f)) = sys_store s) by (intros k f; unfold on_event; now destruct (f (obj s k)) as [[e n] x]).
    destruct o; cbn [step]; try apply CR; try (rewrite OE; auto); auto.
    - unfold delete_event, ddel. destruct (dget (sys_store s) (e_uid (obj s r0))); [|auto]. unfold sst. cbn [fst with_store sys_store].
      rewrite dget_drem by apply RS. now destruct (String.eqb u _).
    - unfold add_attendee. now destruct a.
    - unfold remove_attendee. destruct (rbind _ _); auto.
    - destruct (import_frame cf s c parsed p cr sync RS) as (s1 & del & (_ & F2 & F3 & _) & _ & _ & _ & X4 & _). rewrite X4.
      destruct (str_in u del); [discriminate|]. intros D. destruct (dget (sys_store s) u) as [q|] eqn:E; [rewrite (F2 u q E) in D; congruence|].
      destruct (F3 u r D E). lia. }
  intros cf s r R B H l. revert s R B H. induction l as [|o l IH]; intros s R B H u; [apply H|]. cbn [do_calls].
  pose proof (reachable_step cf s o R) as R'. specialize (fun u => ST cf s o u r R B) as S1.
  destruct (step_tracks cf s o (reachable_store cf s R)) as (_ & (G & _) & _). destruct (step cf s o) as [[s1 n] x]. unfold sst in *. cbn [fst] in *.
  assert (H1 : forall u, get_event s1 u <> Ok r).
  { intros v E. apply (H v). specialize (S1 v). unfold get_event in *. destruct (dget (sys_store s1) v) as [q|]; [|discriminate]. injection E as ->. now rewrite S1. }
  specialize (IH s1 R' ltac:(lia) H1 u). destruct (do_calls cf s1 l). exact IH.
Qed.
Print Assumptions C159_gone.

Theorem C159_deleted : forall cf s r u k, reachable cf s -> get_event s u = Ok k ->
  has_event (sst (step cf s (ODelete r))) u = false ->
  forall l v, get_event (fst (do_calls cf (sst (step cf s (ODelete r))) l)) v <> Ok k.
Proof.
  intros cf s r u k R E H l v. assert (D : dget (sys_store s) u = Some k) by (unfold get_event in E; destruct (dget (sys_store s) u); congruence).
  destruct (reachable_store cf s R) as [NS IS]. destruct (IS u k D) as (B & U & _). pose proof (reachable_step cf s (ODelete r) R) as R'.
  apply (C159_gone cf _ k R').
  - destruct (step_tracks cf s (ODelete r) (conj NS IS)) as (_ & (G & _) & _). lia.
  - intros w W. destruct (reachable_store cf _ R') as [_ I']. unfold get_event in W. destruct (dget (sys_store (sst (step cf s (ODelete r)))) w) as [q|] eqn:Q; [|discriminate].
    injection W as ->. destruct (I' w k Q) as (_ & U' & _). rewrite (C84_only_that_object cf s (ODelete r) k) in U'; [|intros []|exact B|discriminate].
    rewrite has_event_dget in H. rewrite U in U'. subst w. now rewrite Q in H.
Qed.
Print Assumptions C159_deleted.

Theorem C159_registered : forall cf l s i, reachable cf s -> dget (sys_source s) i <> None -> dget (sys_source (fst (do_calls cf s l))) i <> None.
Proof.
  intros cf l. induction l as [|o l IH]; intros s i R H; [exact H|]. cbn [do_calls].
  assert (H1 : dget (sys_source (sst (step cf s o))) i <> None).
  { rewrite (step_source cf s o (reachable_store cf s R)). destruct o; try exact H. rewrite dget_dset. now destruct (String.eqb i i0). }
  pose proof (reachable_step cf s o R) as R'. destruct (step cf s o) as [[s1 n] x]. specialize (IH s1 i R' H1). destruct (do_calls cf s1 l). exact IH.
Qed.
Print Assumptions C159_registered.

(** In the office: answers, a removal, a role, an attribute, specifications with
    a new organizer and with a status out of the ordinary, which is then lost, two new events, another name for Ann, a new calendar and its
    members, an import that changes one event and adds another; and a call that
    fails.  Afterwards a good deal is different, and all of it can be taken back. *)
Lemma kept_by s s' : forallb (has_event s') (dkeys (sys_store s)) = true -> forall u, has_event s u = true -> has_event s' u = true.
Proof.
  intros H u E. rewrite forallb_forall in H. apply H. rewrite has_event_dget in E. destruct (dget (sys_store s) u) as [r|] eqn:D; [|discriminate].
  apply dget_in in D. now apply (in_map fst) in D.
Qed.
Definition busy_day : list op :=
  [OSetStatus 1 bob None; OSetStatus 0 bob (Some "DECLINED"); OSetRole 1 ann "CHAIR"; OSetStatus 1 ann (Some "MAYBE"); OInvite 2 [ann; bob];
   OAssign 2 (p_spec (p_at 732510 9) None true None []); OAdjust 2;
   OSpecify 1 (p_spec (p_at 732501 11) (Some HOUR) false (Some "zoe") [(bob, "NON-PARTICIPANT", Some "DELEGATED")]);
   OSpecify 2 (p_spec (p_at 732501 9) (Some HOUR) false bob [(ann, "CHAIR", Some "MAYBE")]); OSetStatus 2 ann None;
   OCreate (Some "n1") (p_spec (p_at 732503 9) (Some HOUR) false bob []) 0; OAttendeeCreate "ann" (p_spec (p_at 732504 9) (Some HOUR) false None []) (p_at 732400 9);
   OAttendee "ann" "Anna" "ROOM"; OCalendar; OAddAttendee 1 bob; OAddAttendee 0 bob; ORemoveAttendee 0 ann; OAddAttendee 0 ann;
   OImport 0 (Ok (Some [x_event "a1" 732500 "Moved" []; x_event "x1" 732507 "New" []])) (None, None) None false]%string.
Example C159_case : let s := run cf0 office in let t := fst (do_calls cf0 s busy_day) in
  reachable cf0 s /\ all_revocable cf0 s busy_day
  /\ In (Raise AssertionError) (snd (do_calls cf0 s busy_day))
  /\ List.length (sys_heap s) = 3%nat /\ List.length (sys_heap t) = 6%nat /\ map fst (sys_store t) <> map fst (sys_store s)
  /\ seen s 1 "bob" = Person (Some "TENTATIVE"%string) (Some "CHAIR"%string) /\ seen t 1 "bob" = Person (Some "DELEGATED"%string) (Some "NON-PARTICIPANT"%string)
  /\ e_organizer (obj t 1) = Some "zoe"%string /\ e_title (obj t 0) = "Moved"%string /\ e_title (obj s 0) <> "Moved"%string
  /\ seen (fst (do_calls cf0 s (firstn 9 busy_day))) 2 "ann" = Person (Some "MAYBE"%string) (Some "CHAIR"%string) /\ seen t 2 "ann" = Person None None /\ get_event t "x1" = Ok 5%nat
  (* a deletion cannot be: the object is gone for good *)
  /\ (let w := sst (step cf0 s (ODelete 1)) in get_event s "a2" = Ok 1%nat /\ has_event w "a2" = false
      /\ get_event (fst (do_calls cf0 w [OCreate (Some "a2"%string) (spec_of (obj s 1)) 0])) "a2" = Ok 3%nat).
Proof.
  cbv zeta. split; [apply run_reachable|]. split; [|vm_compute; repeat split; try discriminate; auto 20].
  unfold busy_day. cbn [all_revocable revocable].
  repeat match goal with
  | |- _ /\ _ => split
  | |- True => exact I
  | |- (_ < _)%nat => vm_compute; lia
  | |- forall u, has_event _ u = true -> _ => apply kept_by; vm_compute; reflexivity
  | |- _ = false => vm_compute; reflexivity
  | |- _ <> None => vm_compute; discriminate
  end.
Qed.
