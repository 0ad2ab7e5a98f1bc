(** Property theorems C173: importing while others work on the same events (cal.py 690-746). *)
From Verif Require Import Base PyDate DateFacts Recurrent CalTime TimeProofs Event Storage ICal System
  QueryProofs EventProofs SpecProofs SystemProofs StoreProofs IdProofs ImportProofs PropEvent PropSystem
  ICalProofs ImportContent ImportTwice PropICal PropImport PropRepeat PropCalendar PropExact PropRound PropAgain PropEdge PropErrors PropAccept
  PropFault ImportRun PropImportRun FineImport.
Local Opaque ord2ymd year_of month_of day_of ymd2ord days_in_month is_leap.

Lemma frun_snoc cf j s ts t : frun cf j s (ts ++ [t]) = fturn cf j (frun cf j s ts) t.
Proof. unfold frun. now rewrite fold_left_app. Qed.

(** ** the actions *)
Lemma edit_call cf s c r v : sst (edit_event cf s c r v) = s \/ exists o, sst (edit_event cf s c r v) = sst (step cf s o).
Proof.
  unfold edit_event. rewrite sbind_slift. destruct (import_spec (cf_tz cf) (source_knows s) (main_attendee s c) v) as [sp|y|]; [|now left..].
  rewrite sbind_slift. destruct (will_modify sp (obj s r)) as [[|]|y|]; [|now left..].
  right. exists (OSpecify r sp). cbn [step]. destruct (on_event s r (set_on_object sp)) as [[s1 n1] [[]|y|]]; reflexivity.
Qed.

Lemma make_call cf s c u v : sst (import_new cf s c u v) = s \/ exists o, sst (import_new cf s c u v) = sst (step cf s o).
Proof.
  unfold import_new. rewrite sbind_slift. destruct (import_spec (cf_tz cf) (source_knows s) (main_attendee s c) v) as [sp|y|]; [|now left..].
  right. exists (OCreate (Some u) sp 0). cbn [step]. destruct (create_event cf s (Some u) sp 0) as [[s1 n1] [a|y|]]; reflexivity.
Qed.

Lemma fact_call cf j s i : fst (fst (fact cf j s i)) = s \/ exists o, fst (fst (fact cf j s i)) = sst (step cf s o).
Proof.
  destruct i as [known seen [|v todo]|known seen u r v todo|known seen u v todo|[|u todo]|r todo|r]; cbn [fact fst]; try now left.
  - apply edit_call.
  - apply make_call.
  - right. now exists (ODelete r).
Qed.

Lemma fact_reach cf j s i : reachable cf s -> reachable cf (fst (fst (fact cf j s i))).
Proof. intros R. destruct (fact_call cf j s i) as [->|(o & ->)]; [exact R|now apply reachable_after]. Qed.

Lemma frun_reach cf j s ts : reachable cf s -> reachable cf (fst (fst (frun cf j s ts))).
Proof.
  intros R. induction ts as [|t ts IH] using rev_ind; [exact R|]. rewrite frun_snoc.
  destruct (frun cf j s ts) as [[s1 ns] i]. cbn [fst] in IH. destruct t as [o|]; cbn [fturn].
  - now apply reachable_after.
  - pose proof (fact_reach cf j s1 i IH) as X. destruct (fact cf j s1 i) as [[s2 n] i2]. exact X.
Qed.

(** ids of events do not change *)
Lemma step_grows cf s o : store_inv s -> grows s (sst (step cf s o)).
Proof. intros I. exact (proj1 (proj2 (step_tracks cf s o I))). Qed.
Lemma fact_grows cf j s i : store_inv s -> grows s (fst (fst (fact cf j s i))).
Proof. intros I. destruct (fact_call cf j s i) as [->|(o & ->)]; [apply grows_refl|now apply step_grows]. Qed.

(** editing changes one event, and announces it *)
Lemma edit_cases cf s c r v : (r < List.length (sys_heap s))%nat -> let m := edit_event cf s c r v in
  iquiet s (sst m) /\ (forall r', r' <> r -> obj (sst m) r' = obj s r')
  /\ ((snt m = [] /\ (srs m = Ok tt -> sst m = s)) \/ (snt m = [NModified (e_uid (obj s r))] /\ srs m = Ok tt)).
Proof.
  intros L. cbv zeta. unfold edit_event. rewrite sbind_slift.
  assert (ID : iquiet s s) by (repeat split).
  destruct (import_spec (cf_tz cf) (source_knows s) (main_attendee s c) v) as [sp|y|]; [|split; [exact ID|split; [reflexivity|now left]]..].
  rewrite sbind_slift. destruct (will_modify sp (obj s r)) as [[|]|y|]; [|split; [exact ID|split; [reflexivity|now left]]..].
  pose proof (set_on_object_notes sp (obj s r)) as N. pose proof (set_on_object_uid sp (obj s r)) as U'. unfold on_event.
  unfold mnotes, mev in N, U'. destruct (set_on_object sp (obj s r)) as [[e' n'] q]. cbn [fst snd] in N, U'. subst n'.
  assert (Q : iquiet s (with_heap s (replace_nth r (sys_heap s) e'))).
  { unfold iquiet. cbn [sys_store sys_source sys_cals sys_heap with_heap]. rewrite replace_nth_length. auto. }
  assert (O : forall r', r' <> r -> obj (with_heap s (replace_nth r (sys_heap s) e')) r' = obj s r').
  { intros r' N. rewrite obj_heap, replace_nth_get. destruct (Nat.eqb_spec r' r) as [->|]; [contradiction|reflexivity]. }
  destruct q as [[]|y|]; unfold sst, snt, srs; cbn [sbind fst snd app]; (split; [exact Q|]); (split; [exact O|]).
  - right. rewrite obj_heap, replace_nth_get, Nat.eqb_refl. cbn [andb]. destruct (Nat.ltb_spec r (List.length (sys_heap s))); [|lia]. now rewrite U'.
  - left. split; [reflexivity|discriminate].
  - left. split; [reflexivity|discriminate].
Qed.

Lemma make_cases cf s c u v : let m := import_new cf s c u v in
  (sst m = s /\ snt m = [] /\ srs m <> Ok tt)
  \/ (exists e, snt m = [NCreated u] /\ srs m = Ok tt
     /\ sst m = mkSys (sys_heap s ++ [e]) (dset (sys_store s) u (List.length (sys_heap s))) (sys_source s) (sys_cals s)).
Proof.
  cbv zeta. unfold import_new. rewrite sbind_slift. destruct (import_spec (cf_tz cf) (source_knows s) (main_attendee s c) v) as [sp|y|].
  2,3: left; repeat split; discriminate.
  unfold create_event. destruct (new_event u sp) as [e|y|]; [|left; repeat split; discriminate..]. right. exists e. repeat split.
Qed.

Lemma drop_cases s r :
  (has_event s (e_uid (obj s r)) = false /\ delete_event s r = (s, [], Raise KeyError))
  \/ (has_event s (e_uid (obj s r)) = true
      /\ delete_event s r = (with_store s (drem (sys_store s) (e_uid (obj s r))), [NDeleted (e_uid (obj s r))], Ok tt)).
Proof. rewrite has_event_dget. unfold delete_event, ddel. destruct (dget (sys_store s) (e_uid (obj s r))); [right|left]; auto. Qed.

(** ** where the import is, and what it has looked up *)
(** the last action of the import, with nothing but calls of others since *)
Definition latest (cf : config) (j : job) (s : system) (ts : list turn) (P : system -> Prop) : Prop :=
  exists ts1 ts2, ts = ts1 ++ Mine :: ts2 /\ (forall t, In t ts2 -> t <> Mine) /\ P (fst (fst (frun cf j s ts1))).

Lemma latest_later cf j s ts o P : latest cf j s ts P -> latest cf j s (ts ++ [Others o]) P.
Proof.
  intros (a & b & -> & H & Q). exists a, (b ++ [Others o]). split; [now rewrite <- app_assoc|]. split; [|exact Q].
  intros t T. apply in_app_iff in T as [T|[<-|[]]]; [now apply H|discriminate].
Qed.
Lemma latest_now cf j s ts (P : system -> Prop) s1 ns i : frun cf j s ts = (s1, ns, i) -> P s1 -> latest cf j s (ts ++ [Mine]) P.
Proof. intros E H. exists ts, []. split; [reflexivity|]. split; [intros t []|]. now rewrite E. Qed.

Definition come_to (j : job) (s : system) (known seen : list string) (past rest : list vevent) : Prop :=
  known = known_at j s /\ j_text j = Ok (Some (past ++ rest)) /\ seen = import_uids past.

Definition fplace (cf : config) (j : job) (s : system) (ts : list turn) (s1 : system) (i : fimporter) : Prop :=
  match i with
  | FLoop known seen todo => exists past, come_to j s known seen past todo
  | FEdit known seen u r v todo => (exists past, come_to j s known seen past (v :: todo)) /\ v_uid v = Some u /\ In u known
      /\ (r < List.length (sys_heap s1))%nat /\ e_uid (obj s1 r) = u /\ latest cf j s ts (fun s0 => get_event s0 u = Ok r)
  | FMake known seen u v todo => (exists past, come_to j s known seen past (v :: todo)) /\ v_uid v = Some u /\ ~ In u known
      /\ latest cf j s ts (fun s0 => has_event s0 u = false)
  | FGone todo => j_sync j = true /\ exists past, missing j s = past ++ todo
  | FDrop r todo => j_sync j = true /\ (r < List.length (sys_heap s1))%nat
      /\ (exists past, missing j s = past ++ e_uid (obj s1 r) :: todo) /\ latest cf j s ts (fun s0 => get_event s0 (e_uid (obj s1 r)) = Ok r)
  | FOver _ => True
  end.

Lemma come_to_next j s known seen past v todo u : come_to j s known seen past (v :: todo) -> v_uid v = Some u ->
  come_to j s known (seen ++ [u]) (past ++ [v]) todo.
Proof.
  intros (K & T & S) V. split; [exact K|]. split; [now rewrite <- app_assoc|]. now rewrite (uids_snoc past v u V), S.
Qed.
Lemma come_to_text j s known seen past v todo u : come_to j s known seen past (v :: todo) -> v_uid v = Some u -> In u (text_ids (j_text j)).
Proof.
  intros (_ & -> & _) V. cbn [text_ids]. unfold import_uids. apply in_flat_map. exists v. split; [apply in_app_iff; right; now left|]. rewrite V. now left.
Qed.

Lemma fturn_others cf j s ts o s1 i : store_inv s1 -> fplace cf j s ts s1 i -> fplace cf j s (ts ++ [Others o]) (sst (step cf s1 o)) i.
Proof.
  intros I P. destruct (step_grows cf s1 o I) as [GL GU].
  destruct i as [known seen todo|known seen u r v todo|known seen u v todo|todo|r todo|r]; cbn [fplace] in *; try exact P.
  - destruct P as (P1 & P2 & P3 & P4 & P5 & P6). split; [exact P1|]. split; [exact P2|]. split; [exact P3|]. split; [lia|].
    rewrite GU by exact P4. split; [exact P5|now apply latest_later].
  - destruct P as (P1 & P2 & P3 & P4). split; [exact P1|]. split; [exact P2|]. split; [exact P3|]. now apply latest_later.
  - destruct P as (P1 & P2 & P3 & P4). rewrite GU by exact P2. split; [exact P1|]. split; [lia|]. split; [exact P3|]. now apply latest_later.
Qed.

Lemma fact_place cf j s ts s1 ns i : store_inv s1 -> frun cf j s ts = (s1, ns, i) -> fplace cf j s ts s1 i ->
  fplace cf j s (ts ++ [Mine]) (fst (fst (fact cf j s1 i))) (snd (fact cf j s1 i)).
Proof.
  intros I E P. destruct i as [known seen [|v todo]|known seen u r v todo|known seen u v todo|[|u todo]|r todo|r]; cbn [fact fst snd].
  - destruct P as (past & K & T & S). rewrite app_nil_r in T. destruct (j_sync j) eqn:Y; [|exact Logic.I].
    split; [exact Y|]. exists []. unfold missing. rewrite T. cbn [text_ids app]. now rewrite K, S.
  - destruct P as (past & M). destruct (v_uid v) as [u|] eqn:V; [|exact Logic.I]. destruct (str_in u known) eqn:K.
    + destruct (get_event s1 u) as [r|x|] eqn:G; [|exact Logic.I..]. cbn [fthen fplace]. apply get_dget in G as D. destruct I as [_ I]. destruct (I u r D) as (L & U & _).
      split; [eauto|]. split; [exact V|]. split; [now apply str_in_iff|]. split; [exact L|]. split; [exact U|]. now apply (latest_now cf j s ts _ s1 ns _ E).
    + destruct (has_event s1 u) eqn:H; cbn [fplace].
      * exists (past ++ [v]). now apply come_to_next.
      * split; [eauto|]. split; [exact V|]. split; [intros X; apply str_in_iff in X; congruence|]. now apply (latest_now cf j s ts _ s1 ns _ E).
  - destruct P as ((past & M) & V & _). destruct (srs (edit_event cf s1 (j_cal j) r v)) as [[]|x|]; [|exact Logic.I..]. cbn [fthen fplace].
    exists (past ++ [v]). now apply come_to_next.
  - destruct P as ((past & M) & V & _). destruct (srs (import_new cf s1 (j_cal j) u v)) as [[]|x|]; [|exact Logic.I..]. cbn [fthen fplace].
    exists (past ++ [v]). now apply come_to_next.
  - exact Logic.I.
  - destruct P as (Y & past & M). destruct (get_event s1 u) as [r|x|] eqn:G; [|exact Logic.I..]. cbn [fthen fplace]. apply get_dget in G as D.
    destruct I as [_ I]. destruct (I u r D) as (L & U & _). rewrite U. split; [exact Y|]. split; [exact L|]. split; [eauto|]. now apply (latest_now cf j s ts _ s1 ns _ E).
  - destruct P as (Y & _ & (past & M) & _). destruct (srs (delete_event s1 r)) as [[]|x|]; [|exact Logic.I..]. cbn [fthen fplace].
    split; [exact Y|]. exists (past ++ [e_uid (obj s1 r)]). now rewrite <- app_assoc.
  - exact Logic.I.
Qed.

Lemma frun_place cf j s ts : reachable cf s -> let '(s1, _, i) := frun cf j s ts in fplace cf j s ts s1 i.
Proof.
  intros R. induction ts as [|t ts IH] using rev_ind.
  - unfold frun, fbegin. cbn [fold_left]. pose proof (begin_place j s) as B. destruct (ibegin j s) as [known seen todo|todo|r]; cbn [place fplace] in *.
    + destruct B as (K & past & T & S & _). exists past. repeat split; assumption.
    + destruct B as (Y & _ & past & M). eauto.
    + exact I.
  - rewrite frun_snoc. pose proof (reachable_store cf _ (frun_reach cf j s ts R)) as SI.
    destruct (frun cf j s ts) as [[s1 ns] i] eqn:E. cbn [fst] in SI. destruct t as [o|]; cbn [fturn].
    + now apply fturn_others.
    + pose proof (fact_place cf j s ts s1 ns i SI E IH) as X. destruct (fact cf j s1 i) as [[s2 n] i2]. exact X.
Qed.

(** ** an action of the import *)
(** as [spares] of C172, but an event under an id of the text may have been replaced *)
Definition fspares (vis : string -> Prop) (txt : list string) (sync : bool) (s1 : system) (n : list notification) (s2 : system) : Prop :=
  (* what neither the calendar had nor the text mentions stays, as it is *)
  (forall u k, get_event s1 u = Ok k -> ~ vis u -> ~ In u txt -> get_event s2 u = Ok k /\ obj s2 k = obj s1 k)
  (* what the calendar had and the text mentions stays *)
  /\ (forall u k, get_event s1 u = Ok k -> vis u -> In u txt -> get_event s2 u = Ok k)
  (* under an id that the text mentions there is still an event *)
  /\ (forall u, has_event s1 u = true -> In u txt -> has_event s2 u = true)
  (* what it does not mention is not changed; only synchronizing deletes it, if it was in the calendar *)
  /\ (forall u k, get_event s1 u = Ok k -> ~ In u txt -> obj s2 k = obj s1 k
       /\ (get_event s2 u = Ok k \/ (vis u /\ sync = true /\ has_event s2 u = false /\ n = [NDeleted u])))
  (* new is only a new event that the text mentions and the calendar did not have *)
  /\ (forall u k, get_event s2 u = Ok k -> get_event s1 u <> Ok k -> In u txt /\ ~ vis u /\ n = [NCreated u] /\ k = List.length (sys_heap s1))
  /\ sys_source s2 = sys_source s1 /\ sys_cals s2 = sys_cals s1
  (* at most one announcement, of what was done *)
  /\ (n = [] \/ (exists u, n = [NCreated u] /\ get_event s2 u = Ok (List.length (sys_heap s1)))
      \/ (exists u, n = [NModified u] /\ vis u /\ In u txt)
      \/ (exists u, n = [NDeleted u] /\ has_event s1 u = true /\ has_event s2 u = false)).

(** what an action does is about what the import has looked up in its action before *)
Definition window (cf : config) (j : job) (s : system) (ts : list turn) (s1 : system) (s2 : system) : Prop :=
  (* an event is replaced only if it was made since *)
  (forall u k k', get_event s1 u = Ok k -> get_event s2 u = Ok k' -> k <> k' -> latest cf j s ts (fun s0 => has_event s0 u = false))
  (* an event is changed only if it was stored then, under its id *)
  /\ (forall k, (k < List.length (sys_heap s1))%nat -> obj s2 k = obj s1 k \/ latest cf j s ts (fun s0 => get_event s0 (e_uid (obj s1 k)) = Ok k))
  (* an id is freed only if it was taken then *)
  /\ (forall u, has_event s1 u = true -> has_event s2 u = false -> latest cf j s ts (fun s0 => has_event s0 u = true)).

Lemma latest_mono cf j s ts (P Q : system -> Prop) : (forall x, P x -> Q x) -> latest cf j s ts P -> latest cf j s ts Q.
Proof. intros H (a & b & E & N & X). exists a, b. auto. Qed.

Lemma window_same cf j s ts s1 s2 : sys_store s2 = sys_store s1 ->
  (forall k, (k < List.length (sys_heap s1))%nat -> obj s2 k = obj s1 k \/ latest cf j s ts (fun s0 => get_event s0 (e_uid (obj s1 k)) = Ok k)) ->
  window cf j s ts s1 s2.
Proof.
  intros E O. unfold window, has_event. assert (G : forall u, get_event s2 u = get_event s1 u) by (intros u; unfold get_event; now rewrite E).
  split; [|split; [exact O|]].
  - intros u k k' A B N. rewrite G in B. congruence.
  - intros u A B. rewrite G in B. congruence.
Qed.

Lemma fact_spares cf j s ts s1 i : store_inv s1 -> fplace cf j s ts s1 i -> let '(s2, n, _) := fact cf j s1 i in
  fspares (visible s (j_cal j) (j_period j) (j_criteria j)) (text_ids (j_text j)) (j_sync j) s1 n s2 /\ window cf j s ts s1 s2.
Proof.
  intros I P. set (vis := visible s (j_cal j) (j_period j) (j_criteria j)).
  assert (SAME : forall s2 n, iquiet s1 s2 ->
     (forall k, (forall u, vis u -> In u (text_ids (j_text j)) -> e_uid (obj s1 k) <> u) -> obj s2 k = obj s1 k) ->
     (n = [] \/ exists u, n = [NModified u] /\ vis u /\ In u (text_ids (j_text j))) ->
     fspares vis (text_ids (j_text j)) (j_sync j) s1 n s2).
  { intros s2 n (E1 & E2 & E3 & _) O N. assert (G : forall u, get_event s2 u = get_event s1 u) by (intros u; unfold get_event; now rewrite E1).
    assert (H : forall u, has_event s2 u = has_event s1 u) by (intros u; unfold has_event; now rewrite G).
    assert (X : forall u k, get_event s1 u = Ok k -> e_uid (obj s1 k) = u).
    { intros u k A. apply get_dget in A. destruct I as [_ I]. now destruct (I u k A) as (_ & U & _). }
    unfold fspares. setoid_rewrite G. setoid_rewrite H. split; [|split; [|split; [|split; [|split; [|split; [exact E2|split; [exact E3|]]]]]]].
    - intros u k A V T. split; [exact A|]. apply O. intros w VW _. rewrite (X u k A). intros ->. contradiction.
    - auto.
    - auto.
    - intros u k A T. split; [|now left]. apply O. intros w _ TW. rewrite (X u k A). intros ->. contradiction.
    - intros u k A B. contradiction.
    - destruct N as [->|(u & -> & N1 & N2)]; [now left|]. right. right. left. eauto. }
  assert (ID : fspares vis (text_ids (j_text j)) (j_sync j) s1 [] s1 /\ window cf j s ts s1 s1).
  { split; [apply SAME; [repeat split|reflexivity|now left]|]. apply window_same; [reflexivity|now left]. }
  destruct i as [known seen [|v todo]|known seen u r v todo|known seen u v todo|[|u todo]|r todo|r]; cbn [fact]; try exact ID.
  - destruct P as ((past & M) & V & KN & L & U & LT). pose proof (come_to_text _ _ _ _ _ _ _ _ M V) as TI.
    assert (VU : vis u) by (destruct M as (K & _); rewrite K in KN; now apply known_visible in KN).
    destruct (edit_cases cf s1 (j_cal j) r v L) as (Q & O & N). split.
    + apply SAME; [exact Q| |].
      * intros k H. apply O. intros ->. now apply (H u VU TI).
      * destruct N as [(N & _)|(N & _)]; rewrite N; [now left|]. right. exists u. rewrite U. auto.
    + apply window_same; [now destruct Q|]. intros k _. destruct (Nat.eq_dec k r) as [->|NK]; [|left; now apply O]. right. now rewrite U.
  - destruct P as ((past & M) & V & KN & LT). pose proof (come_to_text _ _ _ _ _ _ _ _ M V) as TI.
    assert (VU : ~ vis u) by (destruct M as (K & _); rewrite K in KN; intros X; apply KN; now apply known_visible).
    destruct (make_cases cf s1 (j_cal j) u v) as [(E & N & _)|(e & N & _ & E)]; rewrite E, N; [exact ID|].
    set (s2 := mkSys (sys_heap s1 ++ [e]) (dset (sys_store s1) u (List.length (sys_heap s1))) (sys_source s1) (sys_cals s1)).
    assert (G : forall w k, get_event s2 w = Ok k <-> (w = u /\ k = List.length (sys_heap s1)) \/ (w <> u /\ get_event s1 w = Ok k)).
    { intros w k. rewrite !get_dget. cbn [s2 sys_store]. rewrite dget_dset. destruct (String.eqb_spec w u) as [->|NE].
      - split; [intros X; left; split; congruence|]. intros [(_ & ->)|(X & _)]; [reflexivity|contradiction].
      - split; [auto|]. intros [(X & _)|(_ & X)]; [contradiction|exact X]. }
    assert (OB : forall w k, get_event s1 w = Ok k -> obj s2 k = obj s1 k).
    { intros w k A. apply get_dget in A. destruct I as [_ I]. destruct (I w k A) as (LE & _). unfold obj. cbn [s2 sys_heap]. now apply app_obj. }
    assert (HG : forall w, has_event s1 w = true -> has_event s2 w = true).
    { intros w. rewrite !has_event_dget. cbn [s2 sys_store]. rewrite dget_dset. now destruct (String.eqb w u). }
    split.
    + unfold fspares. split; [|split; [|split; [|split; [|split; [|split; [reflexivity|split; [reflexivity|]]]]]]].
      * intros w k A VW TW. split; [|now apply (OB w)]. apply G. right. split; [|exact A]. intros ->. contradiction.
      * intros w k A VW TW. apply G. right. split; [|exact A]. intros ->. contradiction.
      * intros w A _. now apply HG.
      * intros w k A TW. split; [now apply (OB w)|]. left. apply G. right. split; [|exact A]. intros ->. contradiction.
      * intros w k A B. apply G in A as [(-> & ->)|(_ & A)]; [|contradiction]. auto.
      * right. left. exists u. split; [reflexivity|]. apply G. now left.
    + split; [|split].
      * intros w k k' A B NE. apply G in B as [(-> & _)|(_ & B)]; [exact LT|congruence].
      * intros k L. left. unfold obj. cbn [s2 sys_heap]. now apply app_obj.
      * intros w A B. rewrite (HG w A) in B. discriminate.
  - destruct P as (Y & L & (past & M) & LT). destruct (drop_cases s1 r) as [(H & ->)|(H & ->)]; unfold sst, snt; cbn [fst snd]; [exact ID|].
    set (u := e_uid (obj s1 r)) in *.
    assert (MU : In u (missing j s)) by (rewrite M; apply in_app_iff; right; now left).
    unfold missing in MU. apply filter_In in MU as [MU MT]. apply known_visible in MU. fold vis in MU.
    assert (NT : ~ In u (text_ids (j_text j))) by (intros X; apply str_in_iff in X; rewrite X in MT; discriminate).
    pose proof I as [ND SI].
    assert (G : forall w, dget (sys_store (with_store s1 (drem (sys_store s1) u))) w = if String.eqb w u then None else dget (sys_store s1) w).
    { intros w. cbn [with_store sys_store]. now rewrite dget_drem. }
    split.
    + unfold fspares. split; [|split; [|split; [|split; [|split; [|split; [reflexivity|split; [reflexivity|]]]]]]].
      * intros w k A V T. split; [|reflexivity]. rewrite get_dget in *. rewrite G. destruct (String.eqb_spec w u) as [->|]; [contradiction|exact A].
      * intros w k A V T. rewrite get_dget in *. rewrite G. destruct (String.eqb_spec w u) as [->|]; [contradiction|exact A].
      * intros w A T. rewrite has_event_dget in *. rewrite G. destruct (String.eqb_spec w u) as [->|]; [contradiction|exact A].
      * intros w k A T. split; [reflexivity|]. rewrite get_dget in *. rewrite has_event_dget, G. destruct (String.eqb_spec w u) as [->|]; [|now left].
        right. auto.
      * intros w k A B. apply get_dget in A. rewrite G in A. destruct (String.eqb w u); [discriminate|]. apply get_dget in A. contradiction.
      * right. right. right. exists u. split; [reflexivity|]. split; [exact H|]. rewrite has_event_dget, G, String.eqb_refl. reflexivity.
    + split; [|split].
      * intros w k k' A B NE. rewrite get_dget in *. rewrite G in B. destruct (String.eqb w u); [discriminate|congruence].
      * intros k _. now left.
      * intros w A B. rewrite has_event_dget, G in B. destruct (String.eqb_spec w u) as [->|].
        -- eapply latest_mono; [|exact LT]. intros x X. cbn beta in X. unfold has_event. fold u in X. now rewrite X.
        -- rewrite has_event_dget in A. congruence.
Qed.

(** ** theorems *)
(** Whatever the others do, also between looking up and working on what was found: the system
    is one that whole calls could have made. *)
Theorem C173_reachable cf j s ts : reachable cf s -> reachable cf (fst (fst (frun cf j s ts))).
Proof. apply frun_reach. Qed.
Print Assumptions C173_reachable.

(** What an action of the import may do, and about what. *)
Theorem C173_spares cf j s ts : reachable cf s ->
  let '(s1, ns, i) := frun cf j s ts in
  let '(s2, n, i2) := fact cf j s1 i in
  frun cf j s (ts ++ [Mine]) = (s2, ns ++ n, i2)
  /\ fspares (visible s (j_cal j) (j_period j) (j_criteria j)) (text_ids (j_text j)) (j_sync j) s1 n s2
  /\ window cf j s ts s1 s2.
Proof.
  intros R. pose proof (frun_reach cf j s ts R) as R1. pose proof (frun_place cf j s ts R) as P. rewrite frun_snoc.
  destruct (frun cf j s ts) as [[s1 ns] i]. cbn [fst snd] in R1. pose proof (fact_spares cf j s ts s1 i (reachable_store cf s1 R1) P) as A.
  cbn [fturn]. destruct (fact cf j s1 i) as [[s2 n] i2]. auto.
Qed.
Print Assumptions C173_spares.

(** ** the runs of C172 are among these *)
Definition fine (i : importer) : fimporter :=
  match i with ILoop known seen todo => FLoop known seen todo | IGone todo => FGone todo | IOver r => FOver r end.
Definition calls (ts : list turn) : list op := flat_map (fun t => match t with Others o => [o] | Mine => [] end) ts.

Lemma fine_act cf j s ns i : exists k, fold_left (fturn cf j) (repeat Mine k) (s, ns, fine i) =
  let '(s', n, i') := iact cf j s i in (s', ns ++ n, fine i').
Proof.
  destruct i as [known seen [|v todo]|[|u todo]|r]; cbn [iact fine].
  - exists 1%nat. cbn [repeat fold_left fturn fact]. now destruct (j_sync j).
  - unfold import_one. destruct (v_uid v) as [u|] eqn:V.
    2:{ exists 1%nat. cbn [repeat fold_left fturn fact]. rewrite V. reflexivity. }
    destruct (str_in u known) eqn:K.
    + unfold import_existing. rewrite sbind_slift. destruct (get_event s u) as [r|x|] eqn:G.
      2,3: exists 1%nat; cbn [repeat fold_left fturn fact]; rewrite V, K, G; reflexivity.
      exists 2%nat. cbn [repeat fold_left fturn fact]. rewrite V, K, G. cbn [fthen fact]. fold (edit_event cf s (j_cal j) r v). rewrite app_nil_r.
      destruct (edit_event cf s (j_cal j) r v) as [[s1 n1] [[]|x|]]; unfold sst, snt, srs; cbn; rewrite ?app_nil_r; reflexivity.
    + destruct (has_event s u) eqn:H.
      * exists 1%nat. cbn [repeat fold_left fturn fact]. rewrite V, K, H. reflexivity.
      * exists 2%nat. cbn [repeat fold_left fturn fact]. rewrite V, K, H. cbn [fact]. rewrite app_nil_r.
        destruct (import_new cf s (j_cal j) u v) as [[s1 n1] [[]|x|]]; unfold sst, snt, srs; cbn; rewrite ?app_nil_r; reflexivity.
  - exists 1%nat. reflexivity.
  - rewrite sbind_slift. destruct (get_event s u) as [r|x|] eqn:G.
    2,3: exists 1%nat; cbn [repeat fold_left fturn fact]; rewrite G; reflexivity.
    exists 2%nat. cbn [repeat fold_left fturn fact]. rewrite G. cbn [fthen fact]. rewrite app_nil_r.
    destruct (delete_event s r) as [[s1 n1] [[]|x|]]; unfold sst, snt, srs; cbn; reflexivity.
  - exists 1%nat. reflexivity.
Qed.

Lemma calls_mine k : calls (repeat Mine k) = [].
Proof. induction k as [|k IH]; [reflexivity|exact IH]. Qed.
Lemma no_calls ts : calls ts = [] -> ts = repeat Mine (List.length ts).
Proof. induction ts as [|[o|] ts IH]; [reflexivity|discriminate|]. cbn. intros H. f_equal. now apply IH. Qed.

(** If nobody comes in between looking up and working on what was found, it is as in C172. *)
Theorem C173_coarse cf j s ts : exists ts', calls ts' = calls ts
  /\ let '(s1, ns, i) := irun cf j s ts in frun cf j s ts' = (s1, ns, fine i).
Proof.
  induction ts as [|t ts (ts' & C & IH)] using rev_ind.
  - exists []. split; [reflexivity|]. reflexivity.
  - rewrite irun_snoc. destruct (irun cf j s ts) as [[s1 ns] i]. destruct t as [o|]; cbn [iturn].
    + exists (ts' ++ [Others o]). split; [unfold calls in *; rewrite !flat_map_app, C; reflexivity|]. rewrite frun_snoc, IH. reflexivity.
    + destruct (fine_act cf j s1 ns i) as (k & H). exists (ts' ++ repeat Mine k). split.
      * unfold calls in *. rewrite !flat_map_app, C. fold (calls (repeat Mine k)). rewrite calls_mine. reflexivity.
      * unfold frun in *. rewrite fold_left_app, IH, H. destruct (iact cf j s1 i) as [[s2 n] i2]. reflexivity.
Qed.
Print Assumptions C173_coarse.

(** Alone it is the import of one user. *)
Theorem C173_alone cf j s : exists n, forall k, (n <= k)%nat ->
  let '(s', notes, r) := step cf s (OImport (j_cal j) (j_text j) (j_period j) (j_criteria j) (j_sync j)) in
  frun cf j s (repeat Mine k) = (s', notes, FOver r).
Proof.
  destruct (C172_alone cf j s) as (n & H). specialize (H n (le_n n)). destruct (C173_coarse cf j s (repeat Mine n)) as (ts' & C & E).
  rewrite calls_mine in C. apply no_calls in C. destruct (step cf s _) as [[s' notes] r]. rewrite H in E. cbn [fine] in E.
  exists (List.length ts'). intros k K. replace k with (List.length ts' + (k - List.length ts'))%nat by lia. rewrite repeat_app.
  unfold frun in *. rewrite fold_left_app, <- C, E. clear. induction (k - List.length ts')%nat as [|d IH]; [reflexivity|].
  cbn [repeat fold_left fturn fact]. rewrite app_nil_r. exact IH.
Qed.
Print Assumptions C173_alone.

(** ** it ends *)
Definition fwork (i : fimporter) : nat :=
  match i with
  | FLoop known _ todo => 2 * List.length todo + 2 * List.length known + 2
  | FEdit known _ _ _ _ todo | FMake known _ _ _ todo => 2 * List.length todo + 2 * List.length known + 3
  | FGone l => 2 * List.length l + 1 | FDrop _ l => 2 * List.length l + 2 | FOver _ => 0
  end.

Lemma fact_work cf j s i : (fwork (snd (fact cf j s i)) <= fwork i - 1)%nat.
Proof.
  destruct i as [known seen [|v todo]|known seen u r v todo|known seen u v todo|[|u todo]|r todo|r]; cbn [fact snd].
  - destruct (j_sync j); cbn [fwork List.length]; [|lia]. pose proof (filter_le (fun u => negb (str_in u seen)) known). lia.
  - destruct (v_uid v) as [u|]; [|cbn; lia]. destruct (str_in u known); [destruct (get_event s u)|destruct (has_event s u)]; cbn [fthen fwork List.length]; lia.
  - destruct (srs _); cbn [fthen fwork List.length]; lia.
  - destruct (srs _); cbn [fthen fwork List.length]; lia.
  - cbn. lia.
  - destruct (get_event s u); cbn [fthen fwork List.length]; lia.
  - destruct (srs _); cbn [fthen fwork List.length]; lia.
  - cbn. lia.
Qed.

(** Whatever the others do: after a bounded number of its own actions the import is over. *)
Theorem C173_ends cf j s : exists n, forall ts, (n <= mine ts)%nat -> exists r, snd (frun cf j s ts) = FOver r.
Proof.
  exists (fwork (fbegin j s)). intros ts H.
  assert (W : (fwork (snd (frun cf j s ts)) <= fwork (fbegin j s) - mine ts)%nat).
  { clear H. induction ts as [|t ts IH] using rev_ind; [cbn; lia|]. rewrite frun_snoc. unfold mine. rewrite filter_app, app_length. fold (mine ts).
    destruct (frun cf j s ts) as [[s1 ns] i]. cbn [snd] in IH. destruct t as [o|]; cbn [fturn filter List.length snd]; [lia|].
    pose proof (fact_work cf j s1 i) as X. destruct (fact cf j s1 i) as [[s2 n] i2]. cbn [snd] in *. lia. }
  destruct (snd (frun cf j s ts)) as [k sn td|k sn u r v td|k sn u v td|td|r td|r]; cbn [fwork] in W; [lia..|eauto].
Qed.
Print Assumptions C173_ends.

(** ** when it raises *)
Lemma edit_decides cf s c r v u : v_uid v = Some u -> decides (srs (edit_event cf s c r v)) (bad_known cf s c v (obj s r)).
Proof.
  intros V. set (s' := with_store s [(u, r)]).
  assert (D : decides (srs (import_one cf s' c [u] v)) (bad_in cf s' c [u] v)).
  { apply one_decides. intros k [<-|[]]. rewrite has_event_dget. cbn. now rewrite String.eqb_refl. }
  assert (G : dget (sys_store s') u = Some r) by (cbn; now rewrite String.eqb_refl).
  assert (E : decides (srs (edit_event cf s c r v)) (bad_in cf s' c [u] v)).
  { revert D. unfold import_one. rewrite V. cbn [str_in existsb]. rewrite String.eqb_refl. cbn [orb]. unfold import_existing. rewrite sbind_slift.
    unfold get_event. rewrite G. unfold edit_event. rewrite !sbind_slift. change (source_knows s') with (source_knows s). change (main_attendee s' c) with (main_attendee s c).
    change (obj s' r) with (obj s r).
    destruct (import_spec (cf_tz cf) (source_knows s) (main_attendee s c) v) as [sp|y|]; [|unfold srs; cbn [sbind snd]; intros [(a & X & _)|(y' & X & D)]; [discriminate|right; exists y'; split; [congruence|exact D]]..].
    rewrite !sbind_slift. change (obj s' r) with (obj s r).
    destruct (will_modify sp (obj s r)) as [[|]|y|].
    - unfold on_event. change (obj s' r) with (obj s r). destruct (set_on_object sp (obj s r)) as [[e' n'] [[]|y|]]; unfold srs; cbn [sbind sret snd];
        intros [(a & X & D)|(y' & X & D)]; try discriminate; [left; exists tt; split; [reflexivity|exact D]|right; exists y'; split; [congruence|exact D]].
    - unfold srs. cbn [sbind sret snd]. intros [(a & X & D)|(y' & X & D)]; [left; exists tt; split; [reflexivity|exact D]|discriminate].
    - unfold srs. cbn [sbind snd]. intros [(a & X & _)|(y' & X & D)]; [discriminate|right; exists y'; split; [congruence|exact D]].
    - unfold srs. cbn [sbind snd]. intros [(a & X & _)|(y' & X & D)]; discriminate. }
  eapply decides_ext; [exact E|]. intros y. cbn beta. unfold bad_in. rewrite V. split.
  - intros [[X _]|(w & W & [(r' & _ & X & B)|(X & _)])]; [discriminate| |]; injection W as <-.
    + assert (r' = r) by congruence. subst r'. exact B.
    + destruct X. now left.
  - intros B. right. exists u. split; [reflexivity|]. left. exists r. split; [now left|]. split; [exact G|exact B].
Qed.

Lemma make_decides cf s c u v : v_uid v = Some u -> decides (srs (import_new cf s c u v)) (bad_new cf s c v).
Proof.
  intros V. set (s' := with_store s []).
  assert (D : decides (srs (import_one cf s' c [] v)) (bad_in cf s' c [] v)) by (apply one_decides; intros k []).
  assert (E : decides (srs (import_new cf s c u v)) (bad_in cf s' c [] v)).
  { revert D. unfold import_one. rewrite V. cbn [str_in existsb]. rewrite has_event_dget. cbn [s' with_store sys_store dget]. unfold import_new. rewrite !sbind_slift.
    change (source_knows (s')) with (source_knows s). change (main_attendee (s') c) with (main_attendee s c).
    destruct (import_spec (cf_tz cf) (source_knows s) (main_attendee s c) v) as [sp|y|].
    - unfold create_event. destruct (new_event u sp) as [e|y|]; unfold srs, sfail; cbn;
        intros [(a & X & D)|(y' & X & D)]; try discriminate; [left; exists tt; split; [reflexivity|exact D]|right; exists y'; split; [congruence|exact D]].
    - unfold srs. cbn. intros [(a & X & _)|(y' & X & D)]; [discriminate|right; exists y'; split; [congruence|exact D]].
    - unfold srs. cbn. intros [(a & X & _)|(y' & X & D)]; discriminate. }
  eapply decides_ext; [exact E|]. intros y. cbn beta. unfold bad_in. rewrite V. split.
  - intros [[X _]|(w & W & [(r' & [] & _)|(_ & _ & B)])]; [discriminate|exact B].
  - intros B. right. exists u. split; [reflexivity|]. right. split; [intros []|]. split; [reflexivity|exact B].
Qed.

(** what is wrong at a place of the import when it goes on in [s1] *)
Definition bad_place (cf : config) (j : job) (s s1 : system) (i : fimporter) (x : exn) : Prop :=
  match i with
  | FLoop _ _ (v :: _) => x = KeyError /\ forall u, v_uid v = Some u -> visible s (j_cal j) (j_period j) (j_criteria j) u /\ has_event s1 u = false
  | FEdit _ _ _ r v _ => bad_known cf s1 (j_cal j) v (obj s1 r) x
  | FMake _ _ _ v _ => bad_new cf s1 (j_cal j) v x
  | FGone (u :: _) => x = KeyError /\ has_event s1 u = false
  | FDrop r _ => x = KeyError /\ has_event s1 (e_uid (obj s1 r)) = false
  | _ => False
  end.

Lemma fthen_raise {A} (r : res A) f x : (forall a, f a <> FOver (Raise x)) -> (fthen r f = FOver (Raise x) <-> r = Raise x).
Proof. intros H. destruct r; cbn [fthen]; split; congruence. Qed.

(** Exactly when an action raises, and what. *)
Theorem C173_raises cf j s ts x : reachable cf s ->
  let '(s1, ns, i) := frun cf j s ts in
  (forall r, i <> FOver r) -> (snd (fact cf j s1 i) = FOver (Raise x) <-> bad_place cf j s s1 i x).
Proof.
  intros R. pose proof (frun_place cf j s ts R) as P. destruct (frun cf j s ts) as [[s1 ns] i]. intros NO.
  destruct i as [known seen [|v todo]|known seen u r v todo|known seen u v todo|[|u todo]|r todo|r]; cbn [fact snd bad_place].
  - destruct (j_sync j); split; try discriminate; intros [].
  - destruct P as (past & K & _). destruct (v_uid v) as [u|]; [|split; [intros X; split; [congruence|discriminate]|intros (-> & _); reflexivity]].
    destruct (str_in u known) eqn:S.
    + apply str_in_iff in S. rewrite K in S. apply known_visible in S. rewrite fthen_raise by discriminate. unfold has_event. unfold get_event.
      destruct (dget (sys_store s1) u) eqn:G.
      * split; [discriminate|]. intros (_ & X). destruct (X u eq_refl) as [_ Y]. rewrite G in Y. discriminate.
      * split; [intros X; split; [congruence|]; intros w W; injection W as <-; rewrite G; auto|]. intros (-> & _). reflexivity.
    + assert (NV : ~ visible s (j_cal j) (j_period j) (j_criteria j) u).
      { intros V. apply known_visible in V. rewrite <- K in V. apply str_in_iff in V. congruence. }
      destruct (has_event s1 u); (split; [discriminate|]); intros (_ & X); now destruct (X u eq_refl).
  - destruct P as (_ & V & _). rewrite fthen_raise by discriminate. apply decides_iff. now apply (edit_decides cf s1 (j_cal j) r v u).
  - destruct P as (_ & V & _). rewrite fthen_raise by discriminate. apply decides_iff. now apply make_decides.
  - split; [discriminate|intros []].
  - rewrite fthen_raise by discriminate. unfold has_event, get_event. destruct (dget (sys_store s1) u); [split; [discriminate|intros (_ & X); discriminate]|].
    split; [intros X; split; congruence|]. intros (-> & _). reflexivity.
  - rewrite fthen_raise by discriminate. destruct (drop_cases s1 r) as [(H & ->)|(H & ->)]; unfold srs; cbn [snd]; rewrite H.
    + split; [intros X; split; congruence|]. intros (-> & _). reflexivity.
    + split; [discriminate|intros (_ & X); discriminate].
  - now destruct (NO r).
Qed.
Print Assumptions C173_raises.

(** ** what the import has done *)
(** at some action of the import *)
Definition at_fine_action (cf : config) (j : job) (s : system) (ts : list turn) (P : system -> list notification -> system -> Prop) : Prop :=
  exists ts1 ts2, ts = ts1 ++ Mine :: ts2
  /\ let '(s1, ns1, _) := frun cf j s ts1 in exists n s2 i2, frun cf j s (ts1 ++ [Mine]) = (s2, ns1 ++ n, i2) /\ P s1 n s2.

Lemma fine_action_later cf j s ts t P : at_fine_action cf j s ts P -> at_fine_action cf j s (ts ++ [t]) P.
Proof. intros (a & b & -> & H). exists a, (b ++ [t]). split; [|exact H]. now rewrite <- app_assoc. Qed.

Lemma fine_action_now cf j s ts (P : system -> list notification -> system -> Prop) s1 ns i s2 n i2 :
  frun cf j s ts = (s1, ns, i) -> fact cf j s1 i = (s2, n, i2) -> P s1 n s2 -> at_fine_action cf j s (ts ++ [Mine]) P.
Proof.
  intros E1 E2 H. exists ts, []. split; [reflexivity|]. rewrite frun_snoc, E1. cbn [fturn]. rewrite E2. eauto 6.
Qed.

(** editing looks at nothing but the event, the people and the calendar *)
Lemma edit_local cf s s' c r v : (r < List.length (sys_heap s))%nat -> (r < List.length (sys_heap s'))%nat -> obj s' r = obj s r ->
  sys_source s' = sys_source s -> sys_cals s' = sys_cals s ->
  srs (edit_event cf s' c r v) = srs (edit_event cf s c r v) /\ obj (sst (edit_event cf s' c r v)) r = obj (sst (edit_event cf s c r v)) r.
Proof.
  intros L L' O E1 E2. destruct (same_source s s' c E1 E2) as [SK SM]. unfold edit_event. rewrite !sbind_slift, SK, SM.
  destruct (import_spec (cf_tz cf) (source_knows s) (main_attendee s c) v) as [sp|y|]; [|auto..].
  rewrite !sbind_slift, O. destruct (will_modify sp (obj s r)) as [[|]|y|]; [|auto..].
  unfold on_event. rewrite O. destruct (set_on_object sp (obj s r)) as [[e' n'] q].
  assert (X : forall x, (r < List.length (sys_heap x))%nat -> obj (with_heap x (replace_nth r (sys_heap x) e')) r = e').
  { intros x LX. rewrite obj_heap, replace_nth_get, Nat.eqb_refl. apply Nat.ltb_lt in LX. now rewrite LX. }
  destruct q as [[]|y|]; unfold srs, sst; cbn [sbind fst snd]; (split; [reflexivity|]); now rewrite !X.
Qed.

Lemma edit_done cf s c r v u : (r < List.length (sys_heap s))%nat -> e_uid (obj s r) = u -> v_uid v = Some u -> srs (edit_event cf s c r v) = Ok tt ->
  let e := obj (sst (edit_event cf s c r v)) r in
  updated (cf_tz cf) v e /\ says_organizer (source_knows s) (main_attendee s c) v (e_organizer e) /\ parts_updated (source_knows s) v (obj s r) e.
Proof.
  intros L U V E. cbv zeta. set (s' := mkSys (firstn (S r) (sys_heap s)) [(u, r)] (sys_source s) (sys_cals s)).
  assert (LF : List.length (sys_heap s') = S r) by (cbn [s' sys_heap]; apply firstn_length_le; lia).
  assert (O : obj s' r = obj s r).
  { unfold obj. cbn [s' sys_heap]. rewrite <- (firstn_skipn (S r) (sys_heap s)) at 2. symmetry. apply app_nth1. cbn [s' sys_heap] in LF. rewrite LF. lia. }
  assert (G : dget (sys_store s') u = Some r) by (cbn; now rewrite String.eqb_refl).
  assert (I : store_inv s').
  { split; [cbn; constructor; [intros []|constructor]|]. intros w k D. cbn in D. destruct (String.eqb_spec u w) as [<-|]; [|try discriminate].
    - rewrite ?String.eqb_refl in D. injection D as <-. split; [lia|]. split; [now rewrite O|]. intros r' L' _. lia.
    - destruct (String.eqb_spec w u) as [->|]; [contradiction|discriminate]. }
  assert (L' : (r < List.length (sys_heap s'))%nat) by lia.
  destruct (edit_local cf s s' c r v L L' O eq_refl eq_refl) as [ES EO].
  assert (IE : import_one cf s' c [u] v = sbind (edit_event cf s' c r v) (fun s _ => sret s u)).
  { unfold import_one. rewrite V. cbn [str_in existsb]. rewrite String.eqb_refl. cbn [orb]. unfold import_existing. rewrite sbind_slift. unfold get_event. now rewrite G. }
  rewrite E in ES. rewrite <- EO. clear EO. destruct (edit_event cf s' c r v) as [[s2 n2] q2]. unfold srs in ES. cbn [snd] in ES. subst q2. unfold sst. cbn [fst].
  assert (OK : srs (import_one cf s' c [u] v) = Ok u) by (rewrite IE; reflexivity).
  assert (KN : forall k, In k [u] -> has_event s' k = true) by (intros k [<-|[]]; rewrite has_event_dget, G; reflexivity).
  destruct (import_one_outcome cf s' c [u] v u I KN OK) as (_ & r2 & D & OC). rewrite IE in D, OC. unfold sst in D, OC. cbn [sbind sret fst] in D, OC.
  destruct OC as [(_ & A & B & C & P)|[(X & _)|(X & _)]]; [|destruct X; now left..].
  assert (r2 = r) by congruence. subst r2. rewrite O in P. auto.
Qed.

Lemma make_done cf s c u v : v_uid v = Some u -> srs (import_new cf s c u v) = Ok tt ->
  let s2 := sst (import_new cf s c u v) in let e := obj s2 (List.length (sys_heap s)) in
  get_event s2 u = Ok (List.length (sys_heap s)) /\ snt (import_new cf s c u v) = [NCreated u] /\
  created (cf_tz cf) v e /\ says_organizer (source_knows s) (main_attendee s c) v (e_organizer e) /\ parts_created (source_knows s) v e.
Proof.
  intros V E. cbv zeta. destruct (make_cases cf s c u v) as [(_ & _ & X)|(e & N & _ & S2)]; [contradiction|]. rewrite S2.
  split; [apply get_dget; cbn [sys_store]; now rewrite dget_dset, String.eqb_refl|]. split; [exact N|].
  set (s' := with_store s []). assert (I : store_inv s') by (split; [constructor|intros w k D; discriminate]).
  assert (IE : import_one cf s' c [] v = sbind (import_new cf s' c u v) (fun s _ => sret s u)) by (unfold import_one; rewrite V; reflexivity).
  assert (SP : exists sp e', import_spec (cf_tz cf) (source_knows s) (main_attendee s c) v = Ok sp /\ new_event u sp = Ok e').
  { revert E. unfold import_new. rewrite sbind_slift. destruct (import_spec (cf_tz cf) (source_knows s) (main_attendee s c) v) as [sp|y|]; intros X; try discriminate X.
    revert X. unfold create_event. destruct (new_event u sp) as [e'|y|] eqn:Q; intros X; try discriminate X. exists sp, e'. auto. }
  destruct SP as (sp & e' & E1 & E2).
  assert (S3 : import_new cf s' c u v = (mkSys (sys_heap s ++ [e']) (dset [] u (List.length (sys_heap s))) (sys_source s) (sys_cals s), [NCreated u], Ok tt)).
  { unfold import_new. rewrite sbind_slift. change (source_knows s') with (source_knows s). change (main_attendee s' c) with (main_attendee s c). rewrite E1.
    unfold create_event. rewrite E2. reflexivity. }
  assert (EE : e' = e).
  { revert S2. unfold import_new. rewrite sbind_slift, E1. unfold create_event. rewrite E2. unfold sst. cbn [sbind sret fst]. intros X. injection X as X.
    apply app_inj_tail in X as [_ X]. exact X. }
  subst e'. rewrite S3 in IE. cbn [sbind sret app] in IE.
  assert (OK : srs (import_one cf s' c [] v) = Ok u) by (rewrite IE; reflexivity).
  destruct (import_one_outcome cf s' c [] v u I ltac:(intros k []) OK) as (_ & r2 & D & OC). rewrite IE in D, OC. unfold sst in D, OC. cbn [fst sys_store dset] in D, OC.
  cbn [dget] in D. rewrite String.eqb_refl in D. injection D as <-.
  destruct OC as [([] & _)|[(_ & _ & A & B & P)|(_ & X & _)]]; [|discriminate]. auto.
Qed.

(** the component was dealt with *)
Definition fdealt (cf : config) (j : job) (s : system) (v : vevent) (s1 : system) (n : list notification) (s2 : system) : Prop :=
  exists u, v_uid v = Some u
  /\ ((visible s (j_cal j) (j_period j) (j_criteria j) u /\ (n = [] -> s2 = s1) /\ exists r, (r < List.length (sys_heap s1))%nat /\ e_uid (obj s1 r) = u
         /\ updated (cf_tz cf) v (obj s2 r)
         /\ says_organizer (source_knows s1) (main_attendee s1 (j_cal j)) v (e_organizer (obj s2 r)) /\ parts_updated (source_knows s1) v (obj s1 r) (obj s2 r))
      \/ (~ visible s (j_cal j) (j_period j) (j_criteria j) u /\ n = [NCreated u] /\ exists r, get_event s2 u = Ok r /\ created (cf_tz cf) v (obj s2 r)
         /\ says_organizer (source_knows s1) (main_attendee s1 (j_cal j)) v (e_organizer (obj s2 r)) /\ parts_created (source_knows s1) v (obj s2 r))
      \/ (~ visible s (j_cal j) (j_period j) (j_criteria j) u /\ has_event s1 u = true /\ n = [] /\ s2 = s1)).

Definition fworked (cf : config) (j : job) (s : system) (ts : list turn) (s1 : system) (i : fimporter) : Prop :=
  match i with
  | FLoop _ _ todo => exists past, j_text j = Ok (Some (past ++ todo)) /\ forall v, In v past -> at_fine_action cf j s ts (fdealt cf j s v)
  | FEdit _ _ _ _ v todo | FMake _ _ _ v todo =>
      exists past, j_text j = Ok (Some (past ++ v :: todo)) /\ forall v, In v past -> at_fine_action cf j s ts (fdealt cf j s v)
  | FGone todo => (exists vs, j_text j = Ok (Some vs) /\ forall v, In v vs -> at_fine_action cf j s ts (fdealt cf j s v))
      /\ exists past, missing j s = past ++ todo /\ forall u, In u past -> at_fine_action cf j s ts (removed u)
  | FDrop r todo => (exists vs, j_text j = Ok (Some vs) /\ forall v, In v vs -> at_fine_action cf j s ts (fdealt cf j s v))
      /\ exists past, missing j s = past ++ e_uid (obj s1 r) :: todo /\ forall u, In u past -> at_fine_action cf j s ts (removed u)
  | FOver (Ok _) =>
      j_text j = Ok None
      \/ (exists vs, j_text j = Ok (Some vs) /\ forall v, In v vs -> at_fine_action cf j s ts (fdealt cf j s v))
         /\ (j_sync j = true -> forall u, In u (missing j s) -> at_fine_action cf j s ts (removed u))
  | FOver _ => True
  end.

Lemma fworked_later cf j s ts t s1 s2 i : fplace cf j s ts s1 i -> grows s1 s2 -> fworked cf j s ts s1 i -> fworked cf j s (ts ++ [t]) s2 i.
Proof.
  intros P [GL GU] W. destruct i as [known seen todo|known seen u r v todo|known seen u v todo|todo|r todo|[[]|x|]]; cbn [fworked] in *.
  - destruct W as (past & T & H). exists past. split; [exact T|]. intros v Hv. now apply fine_action_later, H.
  - destruct W as (past & T & H). exists past. split; [exact T|]. intros w Hw. now apply fine_action_later, H.
  - destruct W as (past & T & H). exists past. split; [exact T|]. intros w Hw. now apply fine_action_later, H.
  - destruct W as ((vs & T & H) & past & M & H2). split; [exists vs; split; [exact T|intros w Hw; now apply fine_action_later, H]|].
    exists past. split; [exact M|]. intros w Hw. now apply fine_action_later, H2.
  - destruct P as (_ & L & _). rewrite GU by exact L. destruct W as ((vs & T & H) & past & M & H2). split; [exists vs; split; [exact T|intros w Hw; now apply fine_action_later, H]|].
    exists past. split; [exact M|]. intros w Hw. now apply fine_action_later, H2.
  - destruct W as [W|((vs & T & H) & M)]; [now left|right]. split; [exists vs; split; [exact T|intros w Hw; now apply fine_action_later, H]|].
    intros Y w Hw. now apply fine_action_later, M.
  - exact I.
  - exact I.
Qed.

Lemma frun_worked cf j s ts : reachable cf s -> let '(s1, _, i) := frun cf j s ts in fworked cf j s ts s1 i.
Proof.
  intros R. induction ts as [|t ts IH] using rev_ind.
  - unfold frun, fbegin, ibegin. cbn [fold_left]. destruct (cal_events s (j_cal j) (j_period j) (j_criteria j)) as [evs|x|]; [|exact I..].
    destruct (j_text j) as [[vs|]|x|] eqn:T; try exact I.
    + exists []. split; [exact T|]. intros v [].
    + now left.
  - pose proof (frun_place cf j s ts R) as PL. pose proof (reachable_store cf _ (frun_reach cf j s ts R)) as SI. rewrite frun_snoc.
    destruct (frun cf j s ts) as [[s1 ns] i] eqn:ER. cbn [fst] in SI. destruct t as [o|]; cbn [fturn].
    { apply (fworked_later cf j s ts (Others o) s1); [exact PL|now apply step_grows|exact IH]. }
    pose proof (fworked_later cf j s ts Mine s1 s1 i PL (grows_refl s1) IH) as LT. clear IH.
    destruct (fact cf j s1 i) as [[s2 n] i2] eqn:EA. pose proof EA as EA0.
    assert (NOW : forall P : system -> list notification -> system -> Prop, P s1 n s2 -> at_fine_action cf j s (ts ++ [Mine]) P) by (intros P; now apply (fine_action_now cf j s ts P s1 ns i s2 n i2)).
    destruct i as [known seen [|v todo]|known seen u r v todo|known seen u v todo|[|u todo]|r todo|r]; cbn [fact] in EA.
    + injection EA as <- <- <-. destruct LT as (past & T & H). rewrite app_nil_r in T. destruct (j_sync j) eqn:Y.
      * split; [eauto|]. exists []. split; [|intros u []]. destruct PL as (past' & K & T' & S). rewrite app_nil_r in T'. unfold missing. rewrite T'. cbn [text_ids app]. now rewrite K, S.
      * right. split; [eauto|]. intros X. rewrite Y in X. discriminate.
    + destruct LT as (past & T & H). destruct PL as (past' & K & _). destruct (v_uid v) as [u|] eqn:V; [|injection EA as <- <- <-; exact I].
      destruct (str_in u known) eqn:S.
      * destruct (get_event s1 u) as [r|x|]; cbn [fthen] in EA; injection EA as <- <- <-; [|exact I..]. exists past. auto.
      * destruct (has_event s1 u) eqn:HE; injection EA as <- <- <-; [|exists past; auto].
        exists (past ++ [v]). rewrite <- app_assoc. split; [exact T|]. intros w W. apply in_app_iff in W as [W|[<-|[]]]; [now apply H|].
        apply NOW. exists u. split; [exact V|]. right. right. split; [|auto]. intros X. apply known_visible in X. rewrite <- K in X. apply str_in_iff in X. congruence.
    + destruct LT as (past & T & H). destruct PL as ((past' & K & _) & V & KN & L & U & _).
      destruct (srs (edit_event cf s1 (j_cal j) r v)) as [[]|x|] eqn:E; cbn [fthen] in EA; injection EA as <- <- <-; [|exact I..].
      exists (past ++ [v]). rewrite <- app_assoc. split; [exact T|]. intros w W. apply in_app_iff in W as [W|[<-|[]]]; [now apply H|].
      apply NOW. exists u. split; [exact V|]. left. rewrite K in KN. split; [now apply known_visible|].
      destruct (edit_cases cf s1 (j_cal j) r v L) as (_ & _ & N). split.
      * destruct N as [(_ & N)|(N & _)]; [intros _; now apply N|rewrite N; discriminate].
      * exists r. split; [exact L|]. split; [exact U|]. exact (edit_done cf s1 (j_cal j) r v u L U V E).
    + destruct LT as (past & T & H). destruct PL as ((past' & K & _) & V & KN & _).
      destruct (srs (import_new cf s1 (j_cal j) u v)) as [[]|x|] eqn:E; cbn [fthen] in EA; injection EA as <- <- <-; [|exact I..].
      exists (past ++ [v]). rewrite <- app_assoc. split; [exact T|]. intros w W. apply in_app_iff in W as [W|[<-|[]]]; [now apply H|].
      apply NOW. exists u. split; [exact V|]. right. left. destruct (make_done cf s1 (j_cal j) u v V E) as (D1 & D2 & D3 & D4 & D5).
      split; [intros X; apply KN; rewrite K; now apply known_visible|]. split; [exact D2|]. eauto 6.
    + injection EA as <- <- <-. destruct LT as (H & past & M & H2). right. split; [exact H|]. intros _ w Hw. rewrite app_nil_r in M. apply H2. now rewrite <- M.
    + destruct LT as (H & past & M & H2). destruct (get_event s1 u) as [r|x|] eqn:G; cbn [fthen] in EA; injection EA as <- <- <-; [|exact I..].
      split; [exact H|]. exists past. apply get_dget in G. destruct SI as [_ SI]. destruct (SI u r G) as (_ & U & _). rewrite U. auto.
    + destruct LT as (H & past & M & H2). destruct (drop_cases s1 r) as [(G & D)|(G & D)]; rewrite D in EA; unfold srs, snt, sst in EA; cbn [fst snd fthen] in EA; injection EA as <- <- <-; [exact I|].
      split; [exact H|]. exists (past ++ [e_uid (obj s1 r)]). rewrite <- app_assoc. split; [exact M|].
      intros w W. apply in_app_iff in W as [W|[<-|[]]]; [now apply H2|]. apply NOW. split; [exact G|]. split; [|reflexivity].
      rewrite has_event_dget. cbn [with_store sys_store]. destruct SI as [ND _]. now rewrite dget_drem, String.eqb_refl.
    + injection EA as <- <- <-. exact LT.
Qed.

(** An import that returns has dealt with every component, as the event was then: it has edited
    the event that it had looked up, or made a new one, or left alone one that the calendar did
    not have; when synchronizing it has freed every uid that was listed and is not in the text. *)
Theorem C173_success cf j s ts s' ns vs : reachable cf s -> frun cf j s ts = (s', ns, FOver (Ok tt)) -> j_text j = Ok (Some vs) ->
  (forall v, In v vs -> at_fine_action cf j s ts (fdealt cf j s v))
  /\ (j_sync j = true -> forall u, visible s (j_cal j) (j_period j) (j_criteria j) u -> ~ In u (text_ids (j_text j)) ->
        at_fine_action cf j s ts (fun s1 n s2 => has_event s1 u = true /\ has_event s2 u = false /\ n = [NDeleted u])).
Proof.
  intros R E T. pose proof (frun_worked cf j s ts R) as W. rewrite E in W. cbn [fworked] in W. destruct W as [W|((vs' & T' & H) & M)]; [congruence|].
  assert (vs' = vs) by congruence. subst vs'. split; [exact H|].
  intros Y u V N. apply (M Y). unfold missing. apply filter_In. split; [now apply known_visible|].
  destruct (str_in u (text_ids (j_text j))) eqn:S; [|reflexivity]. apply str_in_iff in S. contradiction.
Qed.
Print Assumptions C173_success.

(** ** several imports at once *)
(** Any number of imports and calls, taking turns at this grain: for each of the imports the
    others are as people who make calls, so all the theorems above hold for it. *)
Theorem C173_many cf s0 ts : reachable cf s0 ->
  let '(s, l) := fmrun cf s0 ts in
  reachable cf s
  /\ forall k j ns i, nth_error l k = Some (j, ns, i) -> exists s1 ts1, reachable cf s1 /\ frun cf j s1 ts1 = (s, ns, i).
Proof.
  intros R. induction ts as [|t ts IH] using rev_ind.
  - split; [exact R|]. intros k j ns i H. destruct k; discriminate.
  - unfold fmrun in *. rewrite fold_left_app. cbn [fold_left]. destruct (fold_left (fmstep cf) ts (s0, [])) as [s l]. destruct IH as [RS IH].
    destruct t as [o|j0|k0]; cbn [fmstep].
    + split; [now apply reachable_after|]. intros k j ns i H. destruct (IH k j ns i H) as (s1 & ts1 & R1 & E). exists s1, (ts1 ++ [Others o]).
      split; [exact R1|]. rewrite frun_snoc, E. reflexivity.
    + split; [exact RS|]. intros k j ns i H. destruct (Nat.ltb_spec k (List.length l)) as [L|L].
      * rewrite nth_error_app1 in H by exact L. now apply (IH k).
      * rewrite nth_error_app2 in H by exact L. destruct (k - List.length l)%nat as [|d]; [|destruct d; discriminate]. cbn in H. injection H as <- <- <-.
        exists s, []. split; [exact RS|reflexivity].
    + destruct (nth_error l k0) as [[[j0 ns0] i0]|] eqn:E0; [|split; [exact RS|exact IH]].
      destruct (fact cf j0 s i0) as [[s' n] i'] eqn:EA.
      assert (C : s' = s \/ exists o, s' = sst (step cf s o)) by (pose proof (fact_call cf j0 s i0) as C; rewrite EA in C; exact C).
      split; [destruct C as [->|(o & ->)]; [exact RS|now apply reachable_after]|].
      intros k j ns i H. destruct (Nat.eq_dec k k0) as [->|NK].
      * assert (H' : (j, ns, i) = (j0, ns0 ++ n, i')).
        { apply (nth_error_nth _ _ (j, ns, i)) in H. rewrite replace_nth_get, Nat.eqb_refl in H. cbn [andb] in H.
          assert (L : (k0 < List.length l)%nat) by (apply nth_error_Some; congruence). apply Nat.ltb_lt in L. rewrite L in H. now symmetry. }
        injection H' as -> -> ->. destruct (IH k0 j0 ns0 i0 E0) as (s1 & ts1 & R1 & E). exists s1, (ts1 ++ [Mine]). split; [exact R1|].
        rewrite frun_snoc, E. cbn [fturn]. now rewrite EA.
      * assert (H' : nth_error l k = Some (j, ns, i)).
        { assert (L : (k < List.length l)%nat) by (rewrite <- (replace_nth_length k0 l (j0, ns0 ++ n, i')); apply nth_error_Some; congruence).
          apply (nth_error_nth _ _ (j, ns, i)) in H. rewrite replace_nth_get in H. destruct (Nat.eqb_spec k k0); [contradiction|]. cbn [andb] in H.
          rewrite <- H. now apply nth_error_nth'. }
        destruct (IH k j ns i H') as (s1 & ts1 & R1 & E). destruct C as [->|(o & ->)].
        -- eauto.
        -- exists s1, (ts1 ++ [Others o]). split; [exact R1|]. rewrite frun_snoc, E. reflexivity.
Qed.
Print Assumptions C173_many.

(** ** examples *)
Definition fr_turns : list turn :=
  [Mine; Others (OCreate (Some "z1") ir_sp 0); Mine; Mine; Mine; Others (OCreate (Some "z2") ir_sp 0); Mine; Mine; Mine; Mine; Mine]%string.

Lemma fr_ran : let w := frun cf0 ir_job (run cf0 office) fr_turns in
  snd w = FOver (Ok tt) /\ snd (fst w) = [NModified "a1"; NCreated "n1"; NDeleted "a2"]%string
  /\ map (has_event (fst (fst w))) ["a1"; "a2"; "b1"; "n1"; "z1"; "z2"]%string = [true; false; true; true; true; true].
Proof. vm_compute. auto 10. Qed.

Example C173_case : reachable cf0 (run cf0 office) /\ (exists r, snd (frun cf0 ir_job (run cf0 office) fr_turns) = FOver r)
  /\ (exists k, (forall r, snd (frun cf0 ir_job (run cf0 office) (firstn k fr_turns)) <> FOver r)
        /\ snd (fst (frun cf0 ir_job (run cf0 office) (firstn k fr_turns))) = [NModified "a1"]%string)
  /\ mine fr_turns = 9%nat /\ calls fr_turns <> [].
Proof.
  split; [apply run_reachable|]. pose proof fr_ran as (H & _). cbv zeta in H. rewrite H. split; [eauto|]. split.
  - exists 5%nat. assert (Q : match snd (frun cf0 ir_job (run cf0 office) (firstn 5 fr_turns)) with FMake _ _ _ _ _ => True | _ => False end
      /\ snd (fst (frun cf0 ir_job (run cf0 office) (firstn 5 fr_turns))) = [NModified "a1"]%string) by (vm_compute; auto).
    destruct Q as [Q Q2]. split; [|exact Q2]. intros r X. rewrite X in Q. exact Q.
  - split; [reflexivity|discriminate].
Qed.

Example C173_success_case : exists s' ns v1 v2 v3, frun cf0 ir_job (run cf0 office) fr_turns = (s', ns, FOver (Ok tt))
  /\ j_text ir_job = Ok (Some [v1; v2; v3]) /\ j_sync ir_job = true
  /\ visible (run cf0 office) (j_cal ir_job) (j_period ir_job) (j_criteria ir_job) "a2" /\ ~ In "a2"%string (text_ids (j_text ir_job)).
Proof.
  do 5 eexists. split; [vm_compute; reflexivity|]. split; [reflexivity|]. split; [reflexivity|]. split.
  - apply known_visible. vm_compute. auto.
  - vm_compute. intros H. repeat (destruct H as [H|H]; [discriminate|]). destruct H.
Qed.

(** two synchronizing imports of the same text, each component looked up by both before either
    works on it: both edit a1 and both make n1 *)
Definition fr_both : list mturn :=
  [MBegin ir_job; MBegin ir_job; MAct 0; MAct 1; MAct 0; MAct 1; MAct 0; MAct 1; MAct 0; MAct 1; MAct 0; MAct 1].
Example C173_many_case : let w := fmrun cf0 (run cf0 office) fr_both in
  map (fun x => snd (fst x)) (snd w) = [[NModified "a1"; NCreated "n1"]; [NCreated "n1"]]%string
  /\ List.length (sys_heap (fst w)) = 5%nat /\ map (has_event (fst w)) ["a1"; "a2"; "b1"; "n1"]%string = [true; true; true; true].
Proof. vm_compute. auto 10. Qed.

(** a2 is deleted by somebody after the import has looked it up *)
Example C173_raises_case : snd (frun cf0 ir_job (run cf0 office) [Mine; Mine; Mine; Mine; Mine; Mine; Mine; Others (ODelete 1); Mine]) = FOver (Raise KeyError)
  /\ match snd (frun cf0 ir_job (run cf0 office) [Mine; Mine; Mine; Mine; Mine; Mine; Mine; Others (ODelete 1)]) with FDrop _ _ => True | _ => False end.
Proof. vm_compute. auto. Qed.

(** ** refuted *)
(** An event that somebody makes under an id of the text, after the import has looked and not
    found it, is lost: both are announced, and nobody gets the first one any more.  If the
    import comes to that component later, it leaves the event alone. *)
Theorem C173_kept_refuted : exists cf j s ts o k k', reachable cf s
  /\ let '(s1, ns1, i1) := frun cf j s (ts ++ [Others o]) in
     let '(s2, ns2, i2) := frun cf j s (ts ++ [Others o; Mine]) in
     let '(s3, ns3, i3) := irun cf j s [Others o; Mine; Mine; Mine] in
     snt (step cf (fst (fst (frun cf j s ts))) o) = [NCreated "n1"%string]
     /\ get_event s1 "n1" = Ok k /\ get_event s2 "n1" = Ok k' /\ k <> k' /\ ns2 = ns1 ++ [NCreated "n1"%string]
     /\ ~ In k (map snd (sys_store s2))
     /\ snd (fst (frun cf j s ts)) = [NModified "a1"%string] /\ ns3 = [NModified "a1"%string] /\ get_event s3 "n1" = Ok k.
Proof.
  exists cf0, ir_job, (run cf0 office), [Mine; Mine; Mine; Mine], (OCreate (Some "n1"%string) ir_sp 0), 3%nat, 4%nat.
  split; [apply run_reachable|]. vm_compute. repeat split; try discriminate. intros H. repeat (destruct H as [H|H]; [discriminate|]). destruct H.
Qed.
Print Assumptions C173_kept_refuted.

(** An event that somebody deletes after the import has looked it up is changed and announced as
    modified all the same. *)
Theorem C173_alive_refuted : exists cf j s r, reachable cf s
  /\ let '(s1, ns1, i1) := frun cf j s [Mine; Others (ODelete r)] in
     let '(s2, ns2, i2) := frun cf j s [Mine; Others (ODelete r); Mine] in
     get_event s "a1" = Ok r /\ has_event s1 "a1" = false /\ has_event s2 "a1" = false
     /\ ns1 = [] /\ ns2 = [NModified "a1"%string] /\ e_title (obj s2 r) <> e_title (obj s1 r).
Proof.
  exists cf0, ir_job, (run cf0 office), 0%nat. split; [apply run_reachable|]. vm_compute. repeat split; discriminate.
Qed.
Print Assumptions C173_alive_refuted.

(** When synchronizing, an event that somebody has made under the id of a deleted one, after the
    import has looked that up, is deleted in its place, although it was never in the calendar. *)
Theorem C173_other_refuted : exists cf j s ts r o k, reachable cf s
  /\ let '(s1, ns1, i1) := frun cf j s (ts ++ [Others (ODelete r); Others o]) in
     let '(s2, n, i2) := fact cf j s1 i1 in
     get_event (fst (fst (frun cf j s ts))) "a2" = Ok r /\ get_event s1 "a2" = Ok k /\ k <> r
     /\ has_event s2 "a2" = false /\ n = [NDeleted "a2"%string]
     /\ match cal_events s1 (j_cal j) (j_period j) (j_criteria j) with Ok evs => ~ In "a2"%string (map e_uid evs) | _ => False end.
Proof.
  exists cf0, ir_job, (run cf0 office), [Mine; Mine; Mine; Mine; Mine; Mine; Mine], 1%nat, (OCreate (Some "a2"%string) ir_sp 0), 4%nat.
  split; [apply run_reachable|]. vm_compute. repeat split; try discriminate. intros H. repeat (destruct H as [H|H]; [discriminate|]). destruct H.
Qed.
Print Assumptions C173_other_refuted.
