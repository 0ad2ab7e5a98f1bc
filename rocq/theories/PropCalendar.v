(** Properties of calendars and of the attendee source over whole histories:
    who is in a calendar (C67), who is known (C68), what a calendar shows (C69). *)
From Verif Require Import Base PyDate DateFacts Recurrent RecurMisc CalTime TimeProofs Event Storage ICal System
  QueryProofs BlockProofs EventProofs SpecProofs SystemProofs StoreProofs IdProofs ImportProofs PropQuery PropEvent PropSystem RuleText.
From Coq Require Import ZifyBool.
Ltac Zify.zify_post_hook ::= Z.div_mod_to_equations.
Local Opaque ord2ymd year_of month_of day_of ymd2ord days_in_month is_leap.

(** * Specification *)
(** Who is in calendar number [c] after a history, told from the successful calls
    alone: the number of calendars made so far, and whether [i] is in.  A new
    calendar is empty. *)
Definition member1 (c : nat) (i : string) (st : nat * bool) (x : op * list notification * res unit) : nat * bool :=
  let '(n, b) := st in
  match x with
  | (OCalendar, _, Ok _) => (S n, if Nat.eqb n c then false else b)
  | (OAddAttendee c' (Some j), _, Ok _) => (n, if Nat.eqb c' c && String.eqb j i then true else b)
  | (ORemoveAttendee c' (Some j), _, Ok _) => (n, if Nat.eqb c' c && String.eqb j i then false else b)
  | _ => (n, b)
  end.
Definition member (h : list (op * list notification * res unit)) (c : nat) (i : string) : bool :=
  snd (fold_left (member1 c i) h (O, false)).
Definition calendars (h : list (op * list notification * res unit)) : nat :=
  List.length (filter (fun x => match x with (OCalendar, _, Ok _) => true | _ => false end) h).

(** name and type under which an attendee was last registered *)
Definition register1 (i : string) (o : option (string * string)) (x : op * list notification * res unit) : option (string * string) :=
  match x with
  | (OAttendee j name typ, _, Ok _) => if String.eqb j i then Some (name, typ) else o
  | _ => o
  end.
Definition registered (h : list (op * list notification * res unit)) (i : string) : option (string * string) :=
  fold_left (register1 i) h None.

(** * What each operation does to calendars and source *)
Lemma on_event_rest s r f : sys_source (sst (on_event s r f)) = sys_source s /\ sys_cals (sst (on_event s r f)) = sys_cals s.
Proof. unfold on_event. destruct (f (obj s r)) as [[e n] x]. auto. Qed.

Lemma create_rest cf s u sp now : sys_source (sst (drop (create_event cf s u sp now))) = sys_source s
  /\ sys_cals (sst (drop (create_event cf s u sp now))) = sys_cals s.
Proof. unfold create_event. destruct (new_event _ sp); auto. Qed.

Lemma delete_rest s r : sys_source (sst (delete_event s r)) = sys_source s /\ sys_cals (sst (delete_event s r)) = sys_cals s.
Proof. unfold delete_event. destruct (ddel _ _); auto. Qed.

Lemma import_rest cf s c parsed p cr sync : store_inv s -> sys_source (sst (import_cal cf s c parsed p cr sync)) = sys_source s
  /\ sys_cals (sst (import_cal cf s c parsed p cr sync)) = sys_cals s.
Proof.
  intros I. destruct (import_frame cf s c parsed p cr sync I) as (s1 & del & (_ & _ & _ & _ & F5 & F6) & _ & E1 & E2 & _). split; congruence.
Qed.

Lemma step_source cf s o : store_inv s ->
  sys_source (sst (step cf s o)) = match o with OAttendee i name typ => dset (sys_source s) i (name, typ) | _ => sys_source s end.
Proof.
  intros I. destruct o; cbn [step]; try apply create_rest; try apply delete_rest; try apply on_event_rest; try reflexivity.
  - unfold add_attendee. destruct (attendee_id a); reflexivity.
  - unfold remove_attendee. destruct (rbind _ _); reflexivity.
  - now apply import_rest.
Qed.

Lemma step_cals cf s o : store_inv s ->
  sys_cals (sst (step cf s o)) =
    match o with
    | OCalendar => sys_cals s ++ [[]]
    | OAddAttendee c (Some i) => replace_nth c (sys_cals s) (dset (cal s c) i tt)
    | ORemoveAttendee c (Some i) => match ddel (cal s c) i with Ok d => replace_nth c (sys_cals s) d | _ => sys_cals s end
    | _ => sys_cals s
    end.
Proof.
  intros I. destruct o; cbn [step]; try apply create_rest; try apply delete_rest; try apply on_event_rest; try reflexivity.
  - destruct a as [i|]; reflexivity.
  - unfold remove_attendee. destruct a as [i|]; cbn [attendee_id rbind]; [|reflexivity]. destruct (ddel (cal s c) i); reflexivity.
  - now apply import_rest.
Qed.

(** * The invariant *)
Lemma member_app h x c i : snd (fold_left (member1 c i) (h ++ [x]) (O, false)) = snd (member1 c i (fold_left (member1 c i) h (O, false)) x).
Proof. rewrite fold_left_app. reflexivity. Qed.

Definition cals_as_told (s : system) (h : list (op * list notification * res unit)) : Prop :=
  (forall c, NoDup (dkeys (cal s c)))
  /\ (forall c i, fst (fold_left (member1 c i) h (O, false)) = List.length (sys_cals s))
  /\ List.length (sys_cals s) = calendars h
  /\ forall c i, (c < List.length (sys_cals s))%nat -> (dget (cal s c) i <> None <-> member h c i = true).

Lemma cal_replace s c d c' : nth c' (replace_nth c (sys_cals s) d) [] = if Nat.eqb c' c && Nat.ltb c (List.length (sys_cals s)) then d else cal s c'.
Proof. apply replace_nth_get. Qed.

Lemma step_told cf s o c i : store_inv s -> (forall c, NoDup (dkeys (cal s c))) ->
  let x := (o, snt (step cf s o), srs (step cf s o)) in
  let s' := sst (step cf s o) in
  NoDup (dkeys (cal s' c))
  /\ (forall b, fst (member1 c i (List.length (sys_cals s), b) x) = List.length (sys_cals s'))
  /\ (List.length (sys_cals s') = List.length (sys_cals s) + calendars [x])%nat
  /\ ((c < List.length (sys_cals s'))%nat ->
      forall b, ((c < List.length (sys_cals s))%nat -> (dget (cal s c) i <> None <-> b = true)) ->
      (dget (cal s' c) i <> None <-> snd (member1 c i (List.length (sys_cals s), b) x) = true)).
Proof.
  intros I N. cbv zeta. pose proof (step_cals cf s o I) as SC.
  match goal with |- ?G => assert (SAME : sys_cals (sst (step cf s o)) = sys_cals s ->
     (forall b, member1 c i (List.length (sys_cals s), b) (o, snt (step cf s o), srs (step cf s o)) = (List.length (sys_cals s), b)) ->
     calendars [(o, snt (step cf s o), srs (step cf s o))] = O -> G) end.
  { intros E1 E2 E3. split; [unfold cal; rewrite E1; apply N|]. split; [intros b; rewrite E2, E1; reflexivity|].
    split; [rewrite E1, E3; lia|]. rewrite E1. intros L b H. rewrite E2. cbn [snd]. unfold cal. rewrite E1. apply H. exact L. }
  destruct o; try (apply SAME; [exact SC|reflexivity|reflexivity]); clear SAME.
  - (* a new calendar *)
    cbn [step sret] in *. unfold sret, sfail, sst, srs, snt in *. cbn [fst snd with_cals sys_cals] in *. rewrite app_length. cbn [List.length].
    assert (C : cal (with_cals s (sys_cals s ++ [[]])) c = if Nat.ltb c (List.length (sys_cals s)) then cal s c else []).
    { unfold cal. cbn [with_cals sys_cals]. destruct (Nat.ltb_spec c (List.length (sys_cals s))); [now rewrite app_nth1|].
      rewrite app_nth2 by lia. destruct (c - List.length (sys_cals s))%nat as [|[|k]]; reflexivity. }
    rewrite C. split; [destruct (Nat.ltb _ _); [apply N|constructor]|]. split; [intros b; cbn; lia|]. split; [reflexivity|].
    intros L b H. cbn [member1 snd]. destruct (Nat.ltb_spec c (List.length (sys_cals s))).
    + destruct (Nat.eqb_spec (List.length (sys_cals s)) c); [lia|]. auto.
    + destruct (Nat.eqb_spec (List.length (sys_cals s)) c); [|lia]. cbn. split; [congruence|discriminate].
  - (* somebody is added *)
    destruct a as [j|].
    2:{ cbn [step add_attendee attendee_id sfail] in *. unfold sret, sfail, sst, srs, snt in *. cbn [fst snd] in *. split; [apply N|]. split; [reflexivity|].
        split; [cbn; lia|]. intros L b H. cbn. auto. }
    cbn [step add_attendee attendee_id sret] in *. unfold sret, sfail, sst, srs, snt in *. cbn [fst snd with_cals sys_cals] in *.
    rewrite replace_nth_length. change (cal (with_cals s ?l) c) with (nth c l []). rewrite cal_replace.
    split. { destruct (Nat.eqb c c0 && _); [apply dset_nodup, N|apply N]. }
    split; [reflexivity|]. split; [cbn; lia|]. intros L b H. cbn [member1 snd].
    destruct (Nat.eqb_spec c c0) as [->|NE].
    + rewrite Nat.eqb_refl. apply Nat.ltb_lt in L as LL. rewrite LL. cbn [andb]. rewrite dget_dset. rewrite (String.eqb_sym i j).
      destruct (String.eqb j i); [split; [reflexivity|discriminate]|auto].
    + destruct (Nat.eqb_spec c0 c); [congruence|]. cbn [andb]. auto.
  - (* somebody is removed *)
    destruct a as [j|].
    2:{ cbn [step remove_attendee attendee_id rbind sfail] in *. unfold sret, sfail, sst, srs, snt in *. cbn [fst snd] in *. split; [apply N|]. split; [reflexivity|].
        split; [cbn; lia|]. intros L b H. cbn. auto. }
    cbn [step] in *. unfold remove_attendee in *. cbn [attendee_id rbind] in *. unfold ddel in *. destruct (dget (cal s c0) j) as [z|] eqn:D.
    2:{ unfold sret, sfail, sst, srs, snt in *. cbn [fst snd] in *. split; [apply N|]. split; [reflexivity|].
        split; [cbn; lia|]. intros L b H. cbn. auto. }
    cbn [sret] in *. unfold sret, sfail, sst, srs, snt in *. cbn [fst snd with_cals sys_cals] in *.
    rewrite replace_nth_length. change (cal (with_cals s ?l) c) with (nth c l []). rewrite cal_replace.
    split. { destruct (Nat.eqb c c0 && _); [apply drem_nodup, N|apply N]. }
    split; [reflexivity|]. split; [cbn; lia|]. intros L b H. cbn [member1 snd].
    destruct (Nat.eqb_spec c c0) as [->|NE].
    + rewrite Nat.eqb_refl. apply Nat.ltb_lt in L as LL. rewrite LL. cbn [andb]. rewrite dget_drem by apply N. rewrite (String.eqb_sym i j).
      destruct (String.eqb j i); [split; [congruence|discriminate]|auto].
    + destruct (Nat.eqb_spec c0 c); [congruence|]. cbn [andb]. auto.
Qed.

Lemma history_told cf s h : history cf s h -> cals_as_told s h.
Proof.
  induction 1 as [|s h o s' n r H IH E].
  - split; [intros c; unfold cal; cbn; destruct c; constructor|]. split; [reflexivity|]. split; [reflexivity|]. cbn. intros; lia.
  - destruct IH as (I1 & I2 & I3 & I4).
    assert (ST : store_inv s) by (eapply reachable_store; eexists; exact H).
    pose proof (fun c i => step_told cf s o c i ST I1) as T. cbv zeta in T. rewrite E in T. unfold sst, snt, srs in T. cbn [fst snd] in T.
    split; [intros c; apply (T c ""%string)|]. split.
    { intros c i. rewrite fold_left_app. cbn [fold_left]. destruct (T c i) as (_ & T2 & _). specialize (I2 c i).
      destruct (fold_left (member1 c i) h (O, false)) as [m b]. cbn [fst] in I2. subst m. apply T2. }
    split. { destruct (T O ""%string) as (_ & _ & T3 & _). rewrite T3, I3. unfold calendars. rewrite filter_app, app_length. reflexivity. }
    intros c i L. unfold member. rewrite member_app. destruct (T c i) as (_ & _ & _ & T4). specialize (I2 c i). specialize (I4 c i). unfold member in I4.
    destruct (fold_left (member1 c i) h (O, false)) as [m b]. cbn [fst snd] in I2, I4. subst m. apply T4; [exact L|]. exact I4.
Qed.

Lemma history_registered cf s h : history cf s h -> forall i, dget (sys_source s) i = registered h i.
Proof.
  induction 1 as [|s h o s' n r H IH E]; intros i; [reflexivity|].
  assert (ST : store_inv s) by (eapply reachable_store; eexists; exact H).
  pose proof (step_source cf s o ST) as SS. rewrite E in SS. unfold sst in SS. cbn [fst] in SS. rewrite SS.
  unfold registered. rewrite fold_left_app. cbn [fold_left]. fold (registered h i). rewrite <- IH.
  destruct o; try reflexivity. cbn [register1]. cbn [step sret] in E. assert (r = Ok tt) by (unfold sret in E; congruence). subst r.
  rewrite dget_dset, (String.eqb_sym i i0). reflexivity.
Qed.

(** * C67: who is in a calendar *)
(** getAttendees lists exactly those added and not removed since, each once; it
    fails exactly when one of them is unknown to the attendee source. *)
Theorem C67_members cf s h c : history cf s h -> (c < calendars h)%nat ->
  ((forall i, member h c i = true -> registered h i <> None) ->
     exists l, cal_attendees s c = Ok l /\ NoDup l /\ forall a, In a l <-> exists i, a = Some i /\ member h c i = true)
  /\ ((exists i, member h c i = true /\ registered h i = None) -> cal_attendees s c = Raise KeyError).
Proof.
  intros H L. destruct (history_told cf s h H) as (T1 & _ & T3 & T4). rewrite <- T3 in L.
  assert (K : forall i, In i (dkeys (cal s c)) <-> member h c i = true).
  { intros i. rewrite <- (T4 c i L), <- dget_some. destruct (dget (cal s c) i); split; intros X; try congruence; [eauto|now destruct X]. }
  pose proof (history_registered cf s h H) as R. unfold cal_attendees.
  assert (G : forall i, source_get s i = match registered h i with Some _ => Ok (Some i) | None => Raise KeyError end).
  { intros i. unfold source_get. rewrite R. reflexivity. }
  split.
  - intros A. exists (map Some (dkeys (cal s c))). split; [|split].
    + assert (A' : forall i, In i (dkeys (cal s c)) -> registered h i <> None) by (intros i Hi; apply A, K, Hi). clear -A' G.
      induction (dkeys (cal s c)) as [|i l IH]; [reflexivity|]. cbn [rmap map]. rewrite G.
      specialize (A' i (or_introl eq_refl)) as X. destruct (registered h i); [|congruence]. cbn [rbind].
      rewrite IH by (intros j Hj; apply A'; now right). reflexivity.
    + apply FinFun.Injective_map_NoDup; [intros x y; congruence|apply T1].
    + intros a. rewrite in_map_iff. split; intros (i & X & Y); exists i; (split; [congruence|]); now apply K.
  - intros (i & M & U). apply K in M. clear -M U G. induction (dkeys (cal s c)) as [|j l IH]; [destruct M|]. cbn [rmap]. rewrite G.
    destruct M as [->|M]; [now rewrite U|]. destruct (registered h j); [|reflexivity]. cbn [rbind]. now rewrite IH.
Qed.
Print Assumptions C67_members.

(** adding never fails; removing fails exactly when the attendee is not in the
    calendar, and then nothing changes *)
Theorem C67_add_remove cf s h c i : history cf s h -> (c < calendars h)%nat ->
  srs (step cf s (OAddAttendee c (Some i))) = Ok tt
  /\ (member h c i = true -> srs (step cf s (ORemoveAttendee c (Some i))) = Ok tt)
  /\ (member h c i = false -> step cf s (ORemoveAttendee c (Some i)) = (s, [], Raise KeyError)).
Proof.
  intros H L. destruct (history_told cf s h H) as (_ & _ & T3 & T4). rewrite <- T3 in L. split; [reflexivity|].
  cbn [step]. unfold remove_attendee. cbn [attendee_id rbind]. unfold ddel. specialize (T4 c i L).
  destruct (dget (cal s c) i) as [u|]; (split; intros M; [try reflexivity|]).
  - exfalso. rewrite M in T4. assert (false = true) by (apply T4; discriminate). discriminate.
  - exfalso. apply T4 in M. congruence.
  - reflexivity.
Qed.
Print Assumptions C67_add_remove.

(** the main attendee is one of them, and there is one unless the calendar is
    empty or they are unknown *)
Theorem C67_main cf s h c : history cf s h -> (c < calendars h)%nat ->
  match main_attendee s c with
  | Ok (Some i) => member h c i = true /\ registered h i <> None
  | Ok None => forall i, member h c i = false
  | Raise x => x = KeyError /\ exists i, member h c i = true /\ registered h i = None
  | OutOfFuel => False
  end.
Proof.
  intros H L. destruct (history_told cf s h H) as (_ & _ & T3 & T4). rewrite <- T3 in L.
  pose proof (history_registered cf s h H) as R. unfold main_attendee, source_get.
  assert (K : forall i, In i (dkeys (cal s c)) <-> member h c i = true).
  { intros i. rewrite <- (T4 c i L), <- dget_some. destruct (dget (cal s c) i); split; intros X; try congruence; [eauto|now destruct X]. }
  destruct (dkeys (cal s c)) as [|i l].
  - intros i. destruct (member h c i) eqn:M; [|reflexivity]. now apply K in M.
  - assert (M : member h c i = true) by (apply K; now left). rewrite R. destruct (registered h i) eqn:U; [|eauto].
    split; [exact M|congruence].
Qed.
Print Assumptions C67_main.

(** calendars do not share attendees *)
Theorem C67_separate cf s h c c' a : history cf s h -> c <> c' ->
  forall o, o = OAddAttendee c a \/ o = ORemoveAttendee c a -> cal_attendees (sst (step cf s o)) c' = cal_attendees s c'
    /\ main_attendee (sst (step cf s o)) c' = main_attendee s c'.
Proof.
  intros H N o O. assert (ST : store_inv s) by (eapply reachable_store; eexists; exact H).
  assert (X : sys_source (sst (step cf s o)) = sys_source s /\ cal (sst (step cf s o)) c' = cal s c').
  { split; [rewrite step_source by exact ST; now destruct O; subst|]. unfold cal. rewrite step_cals by exact ST.
    destruct O; subst; destruct a as [i|]; try reflexivity.
    - rewrite cal_replace. destruct (Nat.eqb_spec c' c); [congruence|reflexivity].
    - destruct (ddel _ _); [|reflexivity..]. rewrite cal_replace. destruct (Nat.eqb_spec c' c); [congruence|reflexivity]. }
  destruct X as [X1 X2]. unfold cal_attendees, main_attendee, source_get. now rewrite X1, X2.
Qed.
Print Assumptions C67_separate.

(** a history made by running operations *)
Definition play (cf : config) (ops : list op) : system * list (op * list notification * res unit) :=
  fold_left (fun sh o => let m := step cf (fst sh) o in (sst m, snd sh ++ [(o, snt m, srs m)])) ops (init, []).

Lemma play_history cf ops : history cf (fst (play cf ops)) (snd (play cf ops)).
Proof.
  unfold play. induction ops as [|o ops IH] using rev_ind; [constructor|]. rewrite fold_left_app. cbn [fold_left].
  set (p := fold_left _ ops _) in *. cbv zeta. cbn [fst snd]. econstructor; [exact IH|].
  destruct (step cf (fst p) o) as [[s n] r]. reflexivity.
Qed.

Definition told : list op :=
  office ++ [OCalendar; OAddAttendee 1 ann; OAddAttendee 1 bob; OAddAttendee 0 bob; ORemoveAttendee 0 bob; ORemoveAttendee 0 bob;
             OAddAttendee 1 (Some "eve"%string); OAttendee "bob" "Robert" "ROOM"].

Example C67_case : let s := fst (play cf0 told) in let h := snd (play cf0 told) in
  history cf0 s h /\ calendars h = 2%nat
  /\ member h 0 "ann" = true /\ member h 0 "bob" = false /\ member h 1 "bob" = true
  /\ member h 1 "eve" = true /\ registered h "eve" = None /\ cal_attendees s 1 = Raise KeyError
  /\ cal_attendees s 0 = Ok [ann] /\ main_attendee s 1 = Ok ann
  /\ registered h "bob" = Some ("Robert", "ROOM")%string.
Proof. split; [apply play_history|]. vm_compute. repeat split. Qed.

(** * C68: who is known *)
(** Whoever was ever registered stays known, under the name and type given last;
    nobody else is.  Calendars, events and imports play no part. *)
Theorem C68_known cf s h i : history cf s h ->
  (source_get s i = match registered h i with Some _ => Ok (Some i) | None => Raise KeyError end)
  /\ (attendee_type s i = match registered h i with Some (_, t) => Ok t | None => Raise KeyError end)
  /\ (source_knows s i = true <-> exists name typ n, In (OAttendee i name typ, n, Ok tt) h).
Proof.
  intros H. pose proof (history_registered cf s h H i) as R. unfold source_get, attendee_type, source_knows. rewrite R.
  split; [reflexivity|]. split; [reflexivity|]. clear R H. induction h as [|x h IH] using rev_ind.
  - cbn. split; [discriminate|]. intros (a & b & c & []).
  - unfold registered in *. rewrite fold_left_app. cbn [fold_left].
    assert (STEP : forall name typ n, In (OAttendee i name typ, n, Ok tt) (h ++ [x]) <->
              In (OAttendee i name typ, n, Ok tt) h \/ x = (OAttendee i name typ, n, Ok tt)).
    { intros. rewrite in_app_iff. cbn [In]. tauto. }
    destruct (register1 i (fold_left (register1 i) h None) x) as [v|] eqn:E.
    + split; [intros _|reflexivity]. destruct x as [[o n] r]. destruct (fold_left (register1 i) h None) as [w|] eqn:W.
      * destruct (proj1 IH eq_refl) as (a & b & c & K). exists a, b, c. apply STEP. now left.
      * destruct o; cbn in E; try discriminate. destruct r as [[]| |]; try discriminate.
        destruct (String.eqb_spec i0 i) as [->|]; [|discriminate]. exists name, typ, n. apply STEP. now right.
    + split; [discriminate|]. intros (a & b & c & K). apply STEP in K as [K|K].
      * assert (X : match fold_left (register1 i) h None with Some _ => true | None => false end = true) by (apply IH; eauto).
        destruct (fold_left (register1 i) h None) as [w|] eqn:W; [|discriminate]. destruct x as [[o n] r].
        destruct o; cbn in E; try discriminate. destruct r; try discriminate. destruct (String.eqb _ _); discriminate.
      * subst x. cbn in E. rewrite String.eqb_refl in E. discriminate.
Qed.
Print Assumptions C68_known.

(** registering again replaces name and type, and touches nobody else *)
Theorem C68_register cf s i name typ j :
  let s' := sst (step cf s (OAttendee i name typ)) in
  srs (step cf s (OAttendee i name typ)) = Ok tt
  /\ source_get s' i = Ok (Some i) /\ attendee_type s' i = Ok typ
  /\ (j <> i -> source_get s' j = source_get s j /\ attendee_type s' j = attendee_type s j)
  /\ sys_heap s' = sys_heap s /\ sys_store s' = sys_store s /\ sys_cals s' = sys_cals s.
Proof.
  cbv zeta. split; [reflexivity|]. cbn [step]. unfold sret, sst, create_attendee, source_get, attendee_type. cbn [fst snd with_source sys_source sys_heap sys_store sys_cals].
  rewrite dget_dset, String.eqb_refl. split; [reflexivity|]. split; [reflexivity|]. split; [|auto].
  intros N. rewrite dget_dset. destruct (String.eqb_spec j i); [congruence|]. auto.
Qed.
Print Assumptions C68_register.

Example C68_case : let s := fst (play cf0 told) in let h := snd (play cf0 told) in
  history cf0 s h /\ source_get s "bob" = Ok bob /\ attendee_type s "bob" = Ok "ROOM"%string
  /\ attendee_type s "ann" = Ok "INDIVIDUAL"%string /\ source_get s "eve" = Raise KeyError.
Proof. split; [apply play_history|]. vm_compute. repeat split. Qed.

(** * C69: what a calendar shows *)
Lemma stored_in s e : store_inv s -> (In e (stored s) <-> exists u r, get_event s u = Ok r /\ e = obj s r).
Proof.
  intros [N I]. unfold stored, get_event. rewrite in_map_iff. split.
  - intros ([u r] & E & H). exists u, r. cbn [snd] in E. rewrite (in_dget _ _ _ N H). auto.
  - intros (u & r & G & ->). exists (u, r). split; [reflexivity|]. destruct (dget (sys_store s) u) as [r'|] eqn:D; [|discriminate].
    assert (r' = r) by congruence. subst. now apply dget_in.
Qed.

Lemma stored_uids s : store_inv s -> map e_uid (stored s) = dkeys (sys_store s).
Proof.
  intros [N I]. unfold stored, dkeys. rewrite map_map. apply map_ext_in. intros [u r] H. cbn [fst snd]. apply in_dget in H; [|exact N].
  now apply I.
Qed.

Lemma rfilter_nodup_map {A B} (g : A -> B) f l : forall out, rfilter f l = Ok out -> NoDup (map g l) -> NoDup (map g out).
Proof.
  induction l as [|a l IH]; intros out E N; cbn [rfilter] in E; [assert (out = []) by congruence; subst; constructor|].
  inversion N as [|x y N1 N2]; subst. destruct (f a) as [b| |]; try discriminate. cbn [rbind] in E.
  destruct (rfilter f l) as [o| |] eqn:R; try discriminate. cbn [rbind] in E. destruct b; [|assert (out = o) by congruence; subst; auto].
  assert (out = a :: o) by congruence. subst. cbn [map]. constructor; [|auto]. intros X. apply N1. apply in_map_iff in X as (y & <- & Y).
  apply in_map. now apply (rfilter_in _ _ _ R) in Y.
Qed.

Lemma cal_events_nodup s c p cr l : store_inv s -> cal_events s c p cr = Ok l -> NoDup (map e_uid l).
Proof.
  intros I E. unfold cal_events in E. destruct (cal_attendees s c) as [atts| |]; try discriminate. cbn [rbind] in E.
  unfold calendar_events, get_events in E. destruct (matching_events _ _) as [m| |] eqn:M; try discriminate. cbn [rbind] in E.
  apply (rfilter_nodup_map e_uid _ _ _ E). apply (rfilter_nodup_map e_uid _ _ _ M). rewrite stored_uids by exact I. apply I.
Qed.

(** The stored events that lie in the period and that the criteria want, the
    members of the calendar standing in where the criteria name nobody; each once. *)
Theorem C69_shown cf s h c p cr l : history cf s h -> (c < calendars h)%nat -> cal_events s c p cr = Ok l ->
  NoDup (map e_uid l)
  /\ (forall e, In e l -> exists r, get_event s (e_uid e) = Ok r /\ e = obj s r)
  /\ exists members, (forall a, In a members <-> exists i, a = Some i /\ member h c i = true)
     /\ forall u r, get_event s u = Ok r -> (In u (map e_uid l) <-> in_time (obj s r) p /\ wanted cr (Some members) None (obj s r)).
Proof.
  intros H L E. assert (I : store_inv s) by (eapply reachable_store; eexists; exact H).
  split; [eapply cal_events_nodup; eauto|].
  assert (K : forall e, In e l -> exists r, get_event s (e_uid e) = Ok r /\ e = obj s r).
  { intros e He. destruct (cal_events_known s c p cr l e I E He) as (r & D & ->). exists r. unfold get_event. now rewrite D. }
  split; [exact K|]. pose proof E as E0. unfold cal_events in E. destruct (cal_attendees s c) as [atts| |] eqn:A; try discriminate. cbn [rbind] in E.
  exists atts. split.
  - destruct (C67_members cf s h c H L) as [M1 M2].
    assert (R : forall i, member h c i = true -> registered h i <> None).
    { intros i M X. rewrite M2 in A; [discriminate|]. eauto. }
    destruct (M1 R) as (l' & X & _ & Y). assert (l' = atts) by congruence. subst. exact Y.
  - intros u r G. rewrite in_map_iff. pose proof (C34_calendar_exact _ _ _ _ _ E) as X. split.
    + intros (e & U & He). destruct (K e He) as (r' & G' & ->). rewrite U in G'. assert (r' = r) by congruence. subst r'.
      apply X in He as (_ & He1 & He2). auto.
    + intros [T W]. exists (obj s r). split.
      * unfold get_event in G. destruct (dget (sys_store s) u) as [r'|] eqn:D; [|discriminate]. assert (r' = r) by congruence. subst. now apply I.
      * apply X. split; [|auto]. apply stored_in; [exact I|]. eauto.
Qed.
Print Assumptions C69_shown.

(** Without criteria: those in which somebody of the calendar takes part. *)
Theorem C69_all cf s h c p l : history cf s h -> (c < calendars h)%nat -> cal_events s c p None = Ok l ->
  forall u r, get_event s u = Ok r ->
  (In u (map e_uid l) <-> in_time (obj s r) p /\ exists i st, member h c i = true /\ dget (e_state (obj s r)) i = Some st).
Proof.
  intros H L E u r G. destruct (C69_shown cf s h c p None l H L E) as (_ & _ & ms & M & X). rewrite (X u r G).
  assert (W : wanted None (Some ms) None (obj s r) <-> exists i st, member h c i = true /\ dget (e_state (obj s r)) i = Some st).
  { rewrite <- (satisfies_restrict None ms). change (restrict_attendees None ms) with (narrowed None ms). rewrite narrowed_none.
    unfold involves, attends. split; intros (i & st & Y1 & Y2); exists i, st; (split; [|exact Y2]).
    - apply M in Y1 as (j & J & Y). congruence.
    - apply M. eauto. }
  now rewrite W.
Qed.
Print Assumptions C69_all.

(** It can be listed whenever its members are known, the criteria name real
    people and every stored event ends within the calendar. *)
Theorem C69_total cf s h c p cr : history cf s h -> (c < calendars h)%nat ->
  (forall i, member h c i = true -> registered h i <> None) ->
  (forall c', cr = Some c' -> crit_ok c') ->
  (forall u r, get_event s u = Ok r -> exists d, e_duration (obj s r) = Some d /\ dt_ok (e_dtstart (obj s r) + d) = true) ->
  exists l, cal_events s c p cr = Ok l.
Proof.
  intros H L R C D. assert (I : store_inv s) by (eapply reachable_store; eexists; exact H).
  destruct (C67_members cf s h c H L) as [M1 _]. destruct (M1 R) as (atts & A & _ & M). unfold cal_events. rewrite A. cbn [rbind].
  unfold calendar_events, get_events.
  assert (CO : crit_ok (restrict_attendees cr atts)).
  { assert (NA : ~ In None atts) by (intros X; apply M in X as (i & X & _); discriminate).
    destruct cr as [k|]; cbn [restrict_attendees].
    - destruct (C k eq_refl) as [C1 C2]. split; unfold clone; cbn [c_organizer c_attendees norm_attendees].
      + destruct (c_organizer k) as [[o|]|]; cbn [or_obj]; congruence.
      + intros l X. apply or_list_iff in X as [[X _]|[_ X]]; [now apply C2|]. assert (l = atts) by congruence. now subst.
    - split; cbn; [discriminate|]. intros l X. assert (l = atts) by congruence. now subst. }
  destruct (matching_total (stored s) (Some (restrict_attendees cr atts)) CO) as [m M']. rewrite M'. cbn [rbind]. apply rfilter_ok.
  intros e He. apply (matching_in _ _ _ M') in He as [He _]. apply (stored_in s e I) in He as (u & r & G & ->).
  destruct (D u r G) as (d & D1 & D2). rewrite D1. now apply in_period_total.
Qed.
Print Assumptions C69_total.

(** bob's event joins when bob joins the calendar, and leaves with them *)
Example C69_case : let s := fst (play cf0 (office ++ [OAddAttendee 0 bob])) in let h := snd (play cf0 (office ++ [OAddAttendee 0 bob])) in
  history cf0 s h /\ (0 < calendars h)%nat
  /\ (forall u r, get_event s u = Ok r -> exists d, e_duration (obj s r) = Some d /\ dt_ok (e_dtstart (obj s r) + d) = true)
  /\ (let* l := cal_events s 0 (Some (p_at 732501 0), None) None in Ok (map e_uid l)) = Ok ["a2"; "b1"]%string
  /\ (let* l := cal_events s 0 (None, Some (p_at 732501 0)) None in Ok (map e_uid l)) = Ok ["a1"%string]
  /\ (let* l := cal_events (sst (step cf0 s (ORemoveAttendee 0 bob))) 0 (None, None) None in Ok (map e_uid l)) = Ok ["a1"; "a2"]%string.
Proof.
  cbv zeta. split; [apply play_history|]. split; [vm_compute; lia|]. split; [|vm_compute; auto].
  intros u r G. unfold get_event in G. destruct (dget _ u) as [r'|] eqn:D; [|discriminate]. assert (r' = r) by congruence. subst r'.
  apply dget_in in D. remember (fst (play cf0 (office ++ [OAddAttendee 0 bob]))) as s eqn:S. vm_compute in S. subst s. cbn [sys_store] in D.
  destruct D as [D|[D|[D|[]]]]; assert (R : r = snd (u, r)) by reflexivity; rewrite <- D in R; cbn in R; subst r; eexists; (split; [reflexivity|vm_compute; reflexivity]).
Qed.
