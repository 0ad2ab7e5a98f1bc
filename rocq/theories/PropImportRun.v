(** Property theorems C172: importing while others work on the calendar (cal.py 690-734). *)
From Verif Require Import Base PyDate DateFacts Recurrent CalTime TimeProofs Event Storage ICal System
  QueryProofs EventProofs SpecProofs SystemProofs StoreProofs IdProofs ImportProofs PropEvent PropSystem
  ICalProofs ImportContent ImportTwice PropICal PropImport PropRepeat PropCalendar PropExact PropRound PropAgain PropEdge PropErrors PropAccept
  PropFault ImportRun.
Local Opaque ord2ymd year_of month_of day_of ymd2ord days_in_month is_leap.

(** ** one component, one deletion *)
Definition iquiet (s s' : system) : Prop :=
  sys_store s' = sys_store s /\ sys_source s' = sys_source s /\ sys_cals s' = sys_cals s
  /\ List.length (sys_heap s') = List.length (sys_heap s).

Lemma one_cases cf s c known v : store_inv s -> let m := import_one cf s c known v in
  (snt m = [] /\ iquiet s (sst m)
     /\ forall r, (forall u, v_uid v = Some u -> In u known -> dget (sys_store s) u <> Some r) -> obj (sst m) r = obj s r)
  \/ (exists u r, v_uid v = Some u /\ In u known /\ dget (sys_store s) u = Some r /\ snt m = [NModified u] /\ srs m = Ok u
     /\ iquiet s (sst m) /\ forall r', r' <> r -> obj (sst m) r' = obj s r')
  \/ (exists u e, v_uid v = Some u /\ ~ In u known /\ has_event s u = false /\ snt m = [NCreated u] /\ srs m = Ok u
     /\ sst m = mkSys (sys_heap s ++ [e]) (dset (sys_store s) u (List.length (sys_heap s))) (sys_source s) (sys_cals s)).
Proof.
  intros I. cbv zeta. unfold import_one. destruct (v_uid v) as [u|]; [|left; repeat split].
  destruct (str_in u known) eqn:K.
  - apply str_in_iff in K. unfold import_existing. rewrite sbind_slift. unfold get_event.
    destruct (dget (sys_store s) u) as [r|] eqn:D; [|left; repeat split].
    rewrite sbind_slift. destruct (import_spec (cf_tz cf) (source_knows s) (main_attendee s c) v) as [sp|y|] eqn:E; [|left; repeat split..].
    rewrite sbind_slift. destruct (will_modify sp (obj s r)) as [[|]|y|]; [|left; repeat split..].
    pose proof (set_on_object_notes sp (obj s r)) as N. pose proof (set_on_object_uid sp (obj s r)) as U'. unfold on_event.
    unfold mnotes, mev in N, U'. destruct (set_on_object sp (obj s r)) as [[e' n'] q]. cbn [fst snd] in N, U'. subst n'.
    assert (Q : iquiet s (with_heap s (replace_nth r (sys_heap s) e'))).
    { unfold iquiet. cbn [sys_store sys_source sys_cals sys_heap with_heap]. rewrite replace_nth_length. auto. }
    assert (O : forall r', r' <> r -> obj (with_heap s (replace_nth r (sys_heap s) e')) r' = obj s r').
    { intros r' N. rewrite obj_heap, replace_nth_get. destruct (Nat.eqb_spec r' r) as [->|]; [contradiction|reflexivity]. }
    destruct q as [[]|y|].
    + right. left. exists u, r. split; [reflexivity|]. split; [exact K|]. split; [exact D|].
      destruct I as [_ I]. destruct (I u r D) as (L & U & _).
      unfold snt, srs, sst. cbn [sbind fst snd sret app]. split; [|split; [reflexivity|split; [exact Q|exact O]]].
      rewrite obj_heap, replace_nth_get, Nat.eqb_refl. cbn [andb]. destruct (Nat.ltb_spec r (List.length (sys_heap s))); [|lia]. now rewrite U', U.
    + left. unfold snt, sst. cbn [sbind fst snd]. split; [reflexivity|]. split; [exact Q|]. intros r' H. apply O. intros ->. now destruct (H u eq_refl K).
    + left. unfold snt, sst. cbn [sbind fst snd]. split; [reflexivity|]. split; [exact Q|]. intros r' H. apply O. intros ->. now destruct (H u eq_refl K).
  - destruct (has_event s u) eqn:HE; [left; repeat split|]. unfold import_new. rewrite sbind_slift.
    destruct (import_spec (cf_tz cf) (source_knows s) (main_attendee s c) v) as [sp|y|]; [|left; repeat split..].
    unfold create_event. destruct (new_event u sp) as [e|y|]; [|left; repeat split..].
    right. right. exists u, e. split; [reflexivity|]. split; [intros X; apply str_in_iff in X; congruence|]. split; [exact HE|]. repeat split.
Qed.

Definition idelete (s : system) (u : string) : smut unit := sbind (slift s (get_event s u)) (fun s r => delete_event s r).

Lemma del_cases s u : store_inv s ->
  (has_event s u = false /\ idelete s u = (s, [], Raise KeyError))
  \/ (exists r, dget (sys_store s) u = Some r /\ idelete s u = (with_store s (drem (sys_store s) u), [NDeleted u], Ok tt)).
Proof.
  intros I. unfold idelete. rewrite sbind_slift. rewrite has_event_dget. unfold get_event.
  destruct (dget (sys_store s) u) as [r|] eqn:D; [right|left; auto].
  exists r. split; [reflexivity|]. now apply delete_event_ok.
Qed.

(** every action is one that a call by itself could do *)
Lemma reachable_after cf s o : reachable cf s -> reachable cf (sst (step cf s o)).
Proof.
  intros [h H]. destruct (step cf s o) as [[s' n] r] eqn:E. exists (h ++ [(o, n, r)]). unfold sst. cbn [fst]. now apply (history_step cf s h o).
Qed.

Lemma component_call cf s c known v : sst (import_one cf s c known v) = s \/ exists o, sst (import_one cf s c known v) = sst (step cf s o).
Proof.
  unfold import_one. destruct (v_uid v) as [u|]; [|now left]. destruct (str_in u known).
  - unfold import_existing. rewrite sbind_slift. destruct (get_event s u) as [r| |]; [|now left..].
    rewrite sbind_slift. destruct (import_spec (cf_tz cf) (source_knows s) (main_attendee s c) v) as [sp|y|]; [|now left..].
    rewrite sbind_slift. destruct (will_modify sp (obj s r)) as [[|]|y|]; [|now left..].
    right. exists (OSpecify r sp). cbn [step]. destruct (on_event s r (set_on_object sp)) as [[s1 n1] [[]|y|]]; reflexivity.
  - destruct (has_event s u); [now left|]. unfold import_new. rewrite sbind_slift.
    destruct (import_spec (cf_tz cf) (source_knows s) (main_attendee s c) v) as [sp|y|]; [|now left..].
    right. exists (OCreate (Some u) sp 0). cbn [step]. destruct (create_event cf s (Some u) sp 0) as [[s1 n1] [a|y|]]; reflexivity.
Qed.

Lemma iact_reach cf j s i : reachable cf s -> reachable cf (fst (fst (iact cf j s i))).
Proof.
  intros R. destruct i as [known seen [|v todo]|[|u todo]|r]; cbn [iact fst]; try exact R.
  - destruct (component_call cf s (j_cal j) known v) as [->|(o & ->)]; [exact R|now apply reachable_after].
  - rewrite sbind_slift. destruct (get_event s u) as [r| |]; [|exact R..]. apply (reachable_after cf s (ODelete r) R).
Qed.

Lemma irun_snoc cf j s ts t : irun cf j s (ts ++ [t]) = iturn cf j (irun cf j s ts) t.
Proof. unfold irun. now rewrite fold_left_app. Qed.

Lemma irun_reach cf j s ts : reachable cf s -> reachable cf (fst (fst (irun cf j s ts))).
Proof.
  intros R. induction ts as [|t ts IH] using rev_ind; [exact R|]. rewrite irun_snoc.
  destruct (irun cf j s ts) as [[s1 ns] i]. cbn [fst] in IH. destruct t as [o|]; cbn [iturn].
  - now apply reachable_after.
  - pose proof (iact_reach cf j s1 i IH) as X. destruct (iact cf j s1 i) as [[s2 n] i2]. exact X.
Qed.

(** ** where the import is *)
Definition known_at (j : job) (s : system) : list string :=
  match cal_events s (j_cal j) (j_period j) (j_criteria j) with Ok evs => nodup string_dec (map e_uid evs) | _ => [] end.

Lemma known_visible j s u : In u (known_at j s) <-> visible s (j_cal j) (j_period j) (j_criteria j) u.
Proof.
  unfold known_at, visible. destruct (cal_events s (j_cal j) (j_period j) (j_criteria j)) as [evs|x|].
  - rewrite known_in. split.
    + intros (e & H1 & H2). eauto.
    + intros (evs' & e & E & H1 & H2). injection E as <-. eauto.
  - split; [intros []|intros (evs & e & X & _); discriminate].
  - split; [intros []|intros (evs & e & X & _); discriminate].
Qed.

Definition listed_all (vs : list vevent) : Prop := forall v, In v vs -> v_uid v <> None.
Definition missing (j : job) (s : system) : list string :=
  filter (fun u => negb (str_in u (text_ids (j_text j)))) (known_at j s).

Definition place (j : job) (s : system) (i : importer) : Prop :=
  match i with
  | ILoop known seen todo => known = known_at j s /\ exists past, j_text j = Ok (Some (past ++ todo)) /\ seen = import_uids past /\ listed_all past
  | IGone todo => j_sync j = true /\ (exists vs, j_text j = Ok (Some vs)) /\ exists past, missing j s = past ++ todo
  | IOver _ => True
  end.

Lemma begin_place j s : place j s (ibegin j s).
Proof.
  unfold ibegin, place, known_at. destruct (cal_events s (j_cal j) (j_period j) (j_criteria j)) as [evs|x|]; [|exact I..].
  destruct (j_text j) as [[vs|]|x|]; try exact I. split; [reflexivity|]. exists []. repeat split. intros v [].
Qed.

Lemma one_uid cf s c known v u : srs (import_one cf s c known v) = Ok u -> v_uid v = Some u.
Proof.
  unfold import_one. destruct (v_uid v) as [w|]; [|discriminate]. destruct (str_in w known).
  - intros E. apply sbind_inv_ok in E as ([] & _ & E & _). cbn in E. congruence.
  - destruct (has_event s w); [cbn; congruence|]. intros E. apply sbind_inv_ok in E as ([] & _ & E & _). cbn in E. congruence.
Qed.

Lemma uids_snoc past v u : v_uid v = Some u -> import_uids (past ++ [v]) = import_uids past ++ [u].
Proof. intros V. unfold import_uids. rewrite flat_map_app. cbn [flat_map]. now rewrite V. Qed.

Lemma act_place cf j s0 s i : place j s0 i -> place j s0 (snd (iact cf j s i)).
Proof.
  destruct i as [known seen [|v todo]|[|u todo]|r]; cbn [iact snd]; try (intros; exact I).
  - intros (K & past & T & S & L). rewrite app_nil_r in T. destruct (j_sync j) eqn:Y; [|exact I].
    split; [exact Y|]. split; [eauto|]. exists []. unfold missing. rewrite T. cbn [text_ids app]. now rewrite K, S.
  - intros (K & past & T & S & L). destruct (srs (import_one cf s (j_cal j) known v)) as [u|x|] eqn:E; [|exact I..]. cbn [ithen].
    apply one_uid in E. split; [exact K|]. exists (past ++ [v]). rewrite <- app_assoc. cbn [app]. split; [exact T|].
    rewrite (uids_snoc past v u E), S. split; [reflexivity|]. intros w W. apply in_app_iff in W as [W|[<-|[]]]; [now apply L|congruence].
  - intros (Y & T & past & M). fold (idelete s u). destruct (srs (idelete s u)) as [[]|x|]; [|exact I..]. cbn [ithen].
    split; [exact Y|]. split; [exact T|]. exists (past ++ [u]). now rewrite <- app_assoc.
Qed.

Lemma run_place cf j s ts : place j s (snd (irun cf j s ts)).
Proof.
  induction ts as [|t ts IH] using rev_ind; [apply begin_place|]. rewrite irun_snoc.
  destruct (irun cf j s ts) as [[s1 ns] i]. cbn [snd] in IH. destruct t as [o|]; cbn [iturn]; [exact IH|].
  pose proof (act_place cf j s s1 i IH) as X. destruct (iact cf j s1 i) as [[s2 n] i2]. exact X.
Qed.

(** ** an action of the import *)
(** what an action that starts in [s1] and ends in [s2] with the announcements [n] may do, when
    [vis] are the ids that were in the calendar and [txt] those in the text *)
Definition spares (vis : string -> Prop) (txt : list string) (sync : bool) (s1 : system) (n : list notification) (s2 : system) : Prop :=
  (* what is not in the calendar stays, as it is *)
  (forall u k, get_event s1 u = Ok k -> ~ vis u -> get_event s2 u = Ok k /\ obj s2 k = obj s1 k)
  (* what the text mentions stays *)
  /\ (forall u k, get_event s1 u = Ok k -> In u txt -> get_event s2 u = Ok k)
  (* what it does not mention is not changed; only synchronizing deletes it, if it was in the calendar *)
  /\ (forall u k, get_event s1 u = Ok k -> ~ In u txt -> obj s2 k = obj s1 k
       /\ (get_event s2 u = Ok k \/ (vis u /\ sync = true /\ has_event s2 u = false /\ n = [NDeleted u])))
  (* new is only what the text mentions and the calendar did not have *)
  /\ (forall u k, has_event s1 u = false -> get_event s2 u = Ok k -> In u txt /\ ~ vis u /\ n = [NCreated u])
  (* deleted events, people and calendars stay as they are *)
  /\ (forall k, (k < List.length (sys_heap s1))%nat -> (forall u, get_event s1 u <> Ok k) -> obj s2 k = obj s1 k)
  /\ sys_source s2 = sys_source s1 /\ sys_cals s2 = sys_cals s1
  (* at most one announcement, of what was done *)
  /\ (n = [] \/ (exists u, n = [NCreated u] /\ has_event s1 u = false /\ has_event s2 u = true)
      \/ (exists u, n = [NModified u] /\ vis u /\ In u txt /\ has_event s1 u = true /\ has_event s2 u = true)
      \/ (exists u, n = [NDeleted u] /\ has_event s1 u = true /\ has_event s2 u = false)).

Lemma get_dget s u k : get_event s u = Ok k <-> dget (sys_store s) u = Some k.
Proof. unfold get_event. destruct (dget (sys_store s) u); split; congruence. Qed.

Lemma spares_same (vis : string -> Prop) txt sync s1 s2 : sys_store s2 = sys_store s1 -> sys_source s2 = sys_source s1 -> sys_cals s2 = sys_cals s1 ->
  (forall k, (forall u, vis u -> In u txt -> dget (sys_store s1) u <> Some k) -> obj s2 k = obj s1 k) -> store_inv s1 ->
  forall n, (n = [] \/ exists u, n = [NModified u] /\ vis u /\ In u txt /\ has_event s1 u = true) -> spares vis txt sync s1 n s2.
Proof.
  intros E1 E2 E3 O [_ I] n N.
  assert (G : forall u, get_event s2 u = get_event s1 u) by (intros u; unfold get_event; now rewrite E1).
  assert (H : forall u, has_event s2 u = has_event s1 u) by (intros u; unfold has_event; now rewrite G).
  assert (X : forall u u' k, get_event s1 u = Ok k -> dget (sys_store s1) u' = Some k -> u' = u).
  { intros u u' k A B. apply get_dget in A. destruct (I u k A) as (_ & U & _), (I u' k B) as (_ & U' & _). congruence. }
  unfold spares. setoid_rewrite G. setoid_rewrite H. split; [|split; [|split; [|split; [|split; [|split; [exact E2|split; [exact E3|]]]]]]].
  - intros u k A V. split; [exact A|]. apply O. intros u' V' _ D. now rewrite (X u u' k A D) in V'.
  - auto.
  - intros u k A T. split; [|now left]. apply O. intros u' _ T' D. now rewrite (X u u' k A D) in T'.
  - intros u k A B. unfold has_event in A. rewrite B in A. discriminate.
  - intros k _ A. apply O. intros u _ _ D. apply (A u). now apply get_dget.
  - destruct N as [->|(u & -> & N1 & N2 & N3)]; [now left|]. right. right. left. exists u. auto.
Qed.

Lemma act_spares cf j s0 s i : store_inv s -> place j s0 i -> let '(s2, n, _) := iact cf j s i in
  spares (visible s0 (j_cal j) (j_period j) (j_criteria j)) (text_ids (j_text j)) (j_sync j) s n s2.
Proof.
  intros I P. assert (ID : spares (visible s0 (j_cal j) (j_period j) (j_criteria j)) (text_ids (j_text j)) (j_sync j) s [] s).
  { apply spares_same; auto. }
  destruct i as [known seen [|v todo]|[|u todo]|r]; cbn [iact]; try exact ID.
  - destruct P as (K & past & T & S & L). rewrite T. cbn [text_ids].
    assert (TI : forall u, v_uid v = Some u -> In u (import_uids (past ++ v :: todo))).
    { intros u V. unfold import_uids. apply in_flat_map. exists v. split; [apply in_app_iff; right; now left|]. rewrite V. now left. }
    assert (KV : forall u, In u known <-> visible s0 (j_cal j) (j_period j) (j_criteria j) u) by (intros u; rewrite K; apply known_visible).
    destruct (one_cases cf s (j_cal j) known v I) as [(N & (E1 & E2 & E3 & E4) & O)|[(u & r & V & KN & D & N & R & (E1 & E2 & E3 & E4) & O)|(u & e & V & KN & D & N & R & E)]].
    + rewrite N. apply spares_same; auto. intros k H. apply O. intros u V KN. apply H; [now apply KV|now apply TI].
    + rewrite N. apply spares_same; auto.
      * intros k H. apply O. intros ->. apply (H u); [now apply KV|now apply TI|exact D].
      * right. exists u. split; [reflexivity|]. split; [now apply KV|]. split; [now apply TI|]. rewrite has_event_dget, D. reflexivity.
    + rewrite N, E. pose proof I as [_ SI].
      assert (G : forall w k, get_event s w = Ok k -> get_event (mkSys (sys_heap s ++ [e]) (dset (sys_store s) u (List.length (sys_heap s))) (sys_source s) (sys_cals s)) w = Ok k
                    /\ obj (mkSys (sys_heap s ++ [e]) (dset (sys_store s) u (List.length (sys_heap s))) (sys_source s) (sys_cals s)) k = obj s k).
      { intros w k A. apply get_dget in A. destruct (SI w k A) as (LE & _). split.
        - apply get_dget. cbn [sys_store]. rewrite dget_dset. destruct (String.eqb_spec w u) as [->|]; [|exact A].
          rewrite has_event_dget, A in D. discriminate.
        - unfold obj. cbn [sys_heap]. now apply app_obj. }
      unfold spares. split; [|split; [|split; [|split; [|split; [|split; [reflexivity|split; [reflexivity|]]]]]]].
      * intros w k A _. now apply G.
      * intros w k A _. now apply G.
      * intros w k A _. split; [now apply (G w)|left; now apply G].
      * intros w k A B. apply get_dget in B. cbn [sys_store] in B. rewrite dget_dset in B. destruct (String.eqb_spec w u) as [->|].
        -- split; [now apply TI|]. split; [|reflexivity]. intros X. apply KN. now apply KV.
        -- rewrite has_event_dget, B in A. discriminate.
      * intros k LE _. unfold obj. cbn [sys_heap]. now apply app_obj.
      * right. left. exists u. split; [reflexivity|]. split; [exact D|]. rewrite has_event_dget. cbn [sys_store]. now rewrite dget_dset, String.eqb_refl.
  - destruct P as (Y & _ & past & M). fold (idelete s u).
    destruct (del_cases s u I) as [(H & ->)|(r & D & ->)]; [exact ID|]. unfold sst, snt. cbn [fst snd].
    assert (MU : In u (missing j s0)) by (rewrite M; apply in_app_iff; right; now left).
    unfold missing in MU. apply filter_In in MU as [MU MT]. apply known_visible in MU.
    assert (NT : ~ In u (text_ids (j_text j))) by (intros X; apply str_in_iff in X; rewrite X in MT; discriminate).
    pose proof I as [ND SI].
    assert (G : forall w, dget (sys_store (with_store s (drem (sys_store s) u))) w = if String.eqb w u then None else dget (sys_store s) w).
    { intros w. cbn [with_store sys_store]. now rewrite dget_drem. }
    unfold spares. split; [|split; [|split; [|split; [|split; [|split; [reflexivity|split; [reflexivity|]]]]]]].
    + intros w k A V. split; [|reflexivity]. rewrite get_dget in *. rewrite G. destruct (String.eqb_spec w u) as [->|]; [contradiction|exact A].
    + intros w k A T. rewrite get_dget in *. rewrite G. destruct (String.eqb_spec w u) as [->|]; [contradiction|exact A].
    + intros w k A T. split; [reflexivity|]. rewrite get_dget in *. rewrite has_event_dget, G. destruct (String.eqb_spec w u) as [->|]; [|now left].
      right. auto.
    + intros w k A B. apply get_dget in B. rewrite G in B. rewrite has_event_dget in A. destruct (String.eqb w u); [discriminate|]. rewrite B in A. discriminate.
    + reflexivity.
    + right. right. right. exists u. split; [reflexivity|]. rewrite !has_event_dget, D, G, String.eqb_refl. auto.
Qed.

(** ** theorems *)
(** Nobody else at work: the import of C45, C46 and C53. *)
Lemma alone_over cf j s r n : fold_left (iturn cf j) (repeat Mine n) (s, [], IOver r) = (s, [], IOver r).
Proof. induction n as [|n IH]; [reflexivity|]. cbn [repeat fold_left iturn iact app]. exact IH. Qed.

Lemma notes_prefix cf j ts : forall s ns i,
  fold_left (iturn cf j) ts (s, ns, i) =
  let '(s', n, i') := fold_left (iturn cf j) ts (s, [], i) in (s', ns ++ n, i').
Proof.
  induction ts as [|t ts IH]; intros s ns i; [cbn; now rewrite app_nil_r|]. cbn [fold_left]. destruct t as [o|]; cbn [iturn].
  - apply IH.
  - destruct (iact cf j s i) as [[s1 n1] i1]. cbn [app]. rewrite (IH s1 (ns ++ n1)), (IH s1 n1).
    destruct (fold_left (iturn cf j) ts (s1, [], i1)) as [[s2 n2] i2]. now rewrite app_assoc.
Qed.

(** enough turns *)
Definition settles (cf : config) (j : job) (s : system) (i : importer) (m : smut unit) : Prop :=
  exists n, forall k, (n <= k)%nat -> fold_left (iturn cf j) (repeat Mine k) (s, [], i) = (sst m, snt m, IOver (srs m)).

Lemma settles_act cf j s i m s1 n1 i1 m1 : iact cf j s i = (s1, n1, i1) -> settles cf j s1 i1 m1 ->
  sst m = sst m1 -> snt m = n1 ++ snt m1 -> srs m = srs m1 -> settles cf j s i m.
Proof.
  intros E (n & H) E1 E2 E3. exists (S n). intros k K. destruct k as [|k]; [lia|]. cbn [repeat fold_left iturn]. rewrite E. cbn [app].
  rewrite notes_prefix, (H k) by lia. now rewrite E1, E2, E3.
Qed.

Lemma settles_over cf j s i s1 n1 r : iact cf j s i = (s1, n1, IOver r) -> settles cf j s i (s1, n1, r).
Proof.
  intros E. apply (settles_act cf j s i (s1, n1, r) s1 n1 (IOver r) (s1, [], r) E); [|reflexivity|symmetry; apply app_nil_r|reflexivity].
  exists O. intros k _. apply alone_over.
Qed.

Lemma gone_alone cf j l : forall s, settles cf j s (IGone l) (delete_loop s l).
Proof.
  induction l as [|u l IH]; intros s; [now apply (settles_over cf j s (IGone []) s [] (Ok tt))|]. cbn [delete_loop].
  pose proof (IH) as IH'. rewrite sbind_slift. destruct (get_event s u) as [r|x|] eqn:G.
  2:{ apply settles_over. cbn [iact]. rewrite sbind_slift, G. reflexivity. }
  2:{ apply settles_over. cbn [iact]. rewrite sbind_slift, G. reflexivity. }
  destruct (delete_event s r) as [[s1 n1] q] eqn:D. destruct q as [[]|x|].
  - rewrite sbind_ok. apply (settles_act cf j s (IGone (u :: l)) _ s1 n1 (IGone l) (delete_loop s1 l)); [|apply IH|reflexivity..].
    cbn [iact]. rewrite sbind_slift, G, D. reflexivity.
  - apply settles_over. cbn [iact]. rewrite sbind_slift, G, D. reflexivity.
  - apply settles_over. cbn [iact]. rewrite sbind_slift, G, D. reflexivity.
Qed.

Lemma loop_alone cf j known vs : forall s seen, settles cf j s (ILoop known seen vs)
  (sbind (import_loop cf s (j_cal j) known vs) (fun s ical =>
     if j_sync j then delete_loop s (filter (fun u => negb (str_in u (seen ++ ical))) known) else sret s tt)).
Proof.
  induction vs as [|v vs IH]; intros s seen; cbn [import_loop].
  - change (@sret (list string) s []) with (s, @nil notification, Ok (@nil string)). rewrite sbind_ok. rewrite app_nil_r. destruct (j_sync j) eqn:Y.
    + apply (settles_act cf j s (ILoop known seen []) _ s [] (IGone (filter (fun u => negb (str_in u seen)) known)) (delete_loop s (filter (fun u => negb (str_in u seen)) known))); [|apply gone_alone|reflexivity..].
      cbn [iact]. now rewrite Y.
    + apply settles_over. cbn [iact]. now rewrite Y.
  - destruct (import_one cf s (j_cal j) known v) as [[s1 n1] q] eqn:D. destruct q as [u|x|].
    + specialize (IH s1 (seen ++ [u])). rewrite sbind_ok. destruct (import_loop cf s1 (j_cal j) known vs) as [[s2 n2] q2] eqn:L.
      eapply settles_act; [cbn [iact]; rewrite D; unfold sst, snt, srs; cbn [fst snd ithen]; reflexivity|exact IH|..];
        (destruct q2 as [us|x|]; [|unfold sst, snt, srs; cbn [sbind fst snd]; rewrite ?app_nil_r; reflexivity..]).
      all: cbn [sbind]; unfold sst, snt, srs; cbn [fst snd sret]; rewrite <- app_assoc; cbn [app];
        destruct (if j_sync j then delete_loop s2 (filter (fun u0 => negb (str_in u0 (seen ++ u :: us))) known) else sret s2 tt) as [[s3 n3] q3];
        cbn [fst snd]; rewrite ?app_nil_r, ?app_assoc; reflexivity.
    + apply settles_over. cbn [iact]. rewrite D. reflexivity.
    + apply settles_over. cbn [iact]. rewrite D. reflexivity.
Qed.

(** If nobody else is at work, the actions of the import one after the other are the import:
    the same state, the same announcements, the same result. *)
Theorem C172_alone cf j s : exists n, forall k, (n <= k)%nat ->
  let '(s', notes, r) := step cf s (OImport (j_cal j) (j_text j) (j_period j) (j_criteria j) (j_sync j)) in
  irun cf j s (repeat Mine k) = (s', notes, IOver r).
Proof.
  assert (H : settles cf j s (ibegin j s) (step cf s (OImport (j_cal j) (j_text j) (j_period j) (j_criteria j) (j_sync j)))).
  { cbn [step]. unfold import_cal, ibegin. rewrite sbind_slift. destruct (cal_events s (j_cal j) (j_period j) (j_criteria j)) as [evs|x|].
    2,3: apply settles_over; reflexivity.
    rewrite sbind_slift. destruct (j_text j) as [[vs|]|x|]; [|apply settles_over; reflexivity..].
    exact (loop_alone cf j (nodup string_dec (map e_uid evs)) vs s []). }
  destruct H as (n & H). exists n. intros k K. specialize (H k K). unfold irun. destruct (step cf s _) as [[s' ns] r]. exact H.
Qed.
Print Assumptions C172_alone.

(** Whatever the others do, in the middle of an import the system is as whole calls could have
    left it: what holds in every reachable state holds there too. *)
Theorem C172_reachable cf j s ts : reachable cf s -> reachable cf (fst (fst (irun cf j s ts))).
Proof. apply irun_reach. Qed.
Print Assumptions C172_reachable.

(** Whatever the others have done, an action of the import spares what is not in the calendar
    that was listed, keeps what the text mentions, and so on (see [spares]). *)
Theorem C172_spares cf j s ts : reachable cf s ->
  let '(s1, ns, i) := irun cf j s ts in
  let '(s2, n, i2) := iact cf j s1 i in
  irun cf j s (ts ++ [Mine]) = (s2, ns ++ n, i2)
  /\ spares (visible s (j_cal j) (j_period j) (j_criteria j)) (text_ids (j_text j)) (j_sync j) s1 n s2.
Proof.
  intros R. pose proof (irun_reach cf j s ts R) as R1. pose proof (run_place cf j s ts) as P. rewrite irun_snoc.
  destruct (irun cf j s ts) as [[s1 ns] i]. cbn [fst snd] in R1, P. pose proof (act_spares cf j s s1 i (reachable_store cf s1 R1) P) as A.
  cbn [iturn]. destruct (iact cf j s1 i) as [[s2 n] i2]. auto.
Qed.
Print Assumptions C172_spares.

(** ** what the import has done *)
(** at some action of the import *)
Definition at_some_action (cf : config) (j : job) (s : system) (ts : list turn) (P : system -> list notification -> system -> Prop) : Prop :=
  exists ts1 ts2, ts = ts1 ++ Mine :: ts2
  /\ let '(s1, ns1, _) := irun cf j s ts1 in exists n s2 i2, irun cf j s (ts1 ++ [Mine]) = (s2, ns1 ++ n, i2) /\ P s1 n s2.

Lemma some_action_later cf j s ts t P : at_some_action cf j s ts P -> at_some_action cf j s (ts ++ [t]) P.
Proof. intros (a & b & -> & H). exists a, (b ++ [t]). split; [|exact H]. now rewrite <- app_assoc. Qed.

Lemma some_action_now cf j s ts (P : system -> list notification -> system -> Prop) s1 ns i s2 n i2 : irun cf j s ts = (s1, ns, i) -> iact cf j s1 i = (s2, n, i2) -> P s1 n s2 ->
  at_some_action cf j s (ts ++ [Mine]) P.
Proof.
  intros E1 E2 H. exists ts, []. split; [reflexivity|]. rewrite irun_snoc, E1. cbn [iturn]. rewrite E2. eauto 6.
Qed.

(** the component was dealt with: what the event is like then is that of C48, C61 and C63, and if
    nothing was announced nothing was changed *)
Definition dealt (cf : config) (j : job) (s : system) (v : vevent) (s1 : system) (n : list notification) (s2 : system) : Prop :=
  exists u, v_uid v = Some u /\ outcome cf s1 (j_cal j) (known_at j s) v u s2 /\ (n = [] -> s2 = s1).
Definition removed (u : string) (s1 : system) (n : list notification) (s2 : system) : Prop :=
  has_event s1 u = true /\ has_event s2 u = false /\ n = [NDeleted u].

Lemma one_known cf s c known known' v : (forall u, v_uid v = Some u -> (In u known <-> In u known')) ->
  import_one cf s c known v = import_one cf s c known' v.
Proof.
  intros H. unfold import_one. destruct (v_uid v) as [u|]; [|reflexivity]. specialize (H u eq_refl).
  replace (str_in u known') with (str_in u known); [reflexivity|].
  destruct (str_in u known) eqn:A, (str_in u known') eqn:B; try reflexivity.
  - apply str_in_iff in A. apply H, str_in_iff in A. congruence.
  - apply str_in_iff in B. apply H, str_in_iff in B. congruence.
Qed.

(** only the id of the component matters *)
Definition just_this (known : list string) (v : vevent) : list string :=
  match v_uid v with Some u => if str_in u known then [u] else [] | None => [] end.

Lemma just_this_in known v u : v_uid v = Some u -> (In u (just_this known v) <-> In u known).
Proof.
  intros V. unfold just_this. rewrite V. destruct (str_in u known) eqn:K.
  - apply str_in_iff in K. cbn. tauto.
  - split; [intros []|]. intros X. apply str_in_iff in X. congruence.
Qed.

Lemma one_narrow cf s c known v : import_one cf s c known v = import_one cf s c (just_this known v) v.
Proof. apply one_known. intros u V. symmetry. now apply just_this_in. Qed.

Lemma one_dealt cf s c known v u : store_inv s -> srs (import_one cf s c known v) = Ok u ->
  outcome cf s c known v u (sst (import_one cf s c known v)) /\ (snt (import_one cf s c known v) = [] -> sst (import_one cf s c known v) = s).
Proof.
  intros I E. pose proof (one_uid _ _ _ _ _ _ E) as V. split.
  - assert (KN : forall k, In k (just_this known v) -> has_event s k = true).
    { intros k. unfold just_this. rewrite V. destruct (str_in u known) eqn:K; [|intros []]. intros [<-|[]].
      unfold import_one in E. rewrite V, K in E. apply sbind_inv_ok in E as ([] & E & _). unfold import_existing in E. rewrite sbind_slift in E.
      unfold has_event. destruct (get_event s u); [reflexivity|discriminate..]. }
    rewrite one_narrow in E. destruct (import_one_outcome cf s c (just_this known v) v u I KN E) as (_ & O).
    rewrite <- one_narrow in O. destruct O as (r & D & O). exists r. split; [exact D|].
    rewrite (just_this_in known v u V) in O. exact O.
  - clear I. revert E. unfold import_one. rewrite V. destruct (str_in u known).
    + intros E. unfold import_existing in *. rewrite sbind_slift in *. destruct (get_event s u) as [r| |]; try discriminate.
      rewrite sbind_slift in *. destruct (import_spec (cf_tz cf) (source_knows s) (main_attendee s c) v) as [sp|y|]; try discriminate.
      rewrite sbind_slift in *. destruct (will_modify sp (obj s r)) as [[|]|y|]; try discriminate; [|reflexivity].
      destruct (on_event s r (set_on_object sp)) as [[s1 n1] q1]. destruct q1 as [[]|y|]; try discriminate.
      unfold snt. cbn [sbind sret fst snd]. rewrite app_nil_r. intros X. apply app_eq_nil in X as [_ X]. discriminate.
    + destruct (has_event s u); [reflexivity|]. unfold import_new. rewrite sbind_slift.
      destruct (import_spec (cf_tz cf) (source_knows s) (main_attendee s c) v) as [sp|y|]; try reflexivity.
      unfold create_event. destruct (new_event u sp) as [e|y|]; try reflexivity. discriminate.
Qed.

Definition worked (cf : config) (j : job) (s : system) (ts : list turn) (i : importer) : Prop :=
  match i with
  | ILoop known seen todo => exists past, j_text j = Ok (Some (past ++ todo)) /\ forall v, In v past -> at_some_action cf j s ts (dealt cf j s v)
  | IGone todo => (exists vs, j_text j = Ok (Some vs) /\ forall v, In v vs -> at_some_action cf j s ts (dealt cf j s v))
      /\ exists past, missing j s = past ++ todo /\ forall u, In u past -> at_some_action cf j s ts (removed u)
  | IOver (Ok _) => (exists evs, cal_events s (j_cal j) (j_period j) (j_criteria j) = Ok evs) /\
      (j_text j = Ok None
      \/ (exists vs, j_text j = Ok (Some vs) /\ forall v, In v vs -> at_some_action cf j s ts (dealt cf j s v))
         /\ (j_sync j = true -> forall u, In u (missing j s) -> at_some_action cf j s ts (removed u)))
  | IOver _ => True
  end.

Lemma listing_read cf j s ts : (forall r, snd (irun cf j s ts) = r -> match r with IOver _ => True | _ => exists evs, cal_events s (j_cal j) (j_period j) (j_criteria j) = Ok evs end).
Proof.
  intros r <-. induction ts as [|t ts IH] using rev_ind.
  - unfold irun, ibegin. cbn [fold_left snd]. destruct (cal_events s (j_cal j) (j_period j) (j_criteria j)) as [evs|x|]; try exact I.
    destruct (j_text j) as [[vs|]|x|]; try exact I. eauto.
  - rewrite irun_snoc. destruct (irun cf j s ts) as [[s1 ns] i]. cbn [snd] in IH. destruct t as [o|]; [exact IH|]. cbn [iturn].
    destruct i as [known seen [|v todo]|[|u todo]|r]; cbn [iact snd].
    + destruct (j_sync j); [exact IH|exact I].
    + destruct (srs (import_one cf s1 (j_cal j) known v)) as [u|x|]; [exact IH|exact I..].
    + exact I.
    + fold (idelete s1 u). destruct (srs (idelete s1 u)) as [[]|x|]; [exact IH|exact I..].
    + exact I.
Qed.

Lemma run_worked cf j s ts : reachable cf s -> worked cf j s ts (snd (irun cf j s ts)).
Proof.
  intros R. induction ts as [|t ts IH] using rev_ind.
  - unfold irun, ibegin. cbn [fold_left snd]. destruct (cal_events s (j_cal j) (j_period j) (j_criteria j)) as [evs|x|] eqn:E; try exact I.
    destruct (j_text j) as [[vs|]|x|] eqn:T; try exact I.
    + exists []. split; [exact T|]. intros v [].
    + split; [eauto|]. now left.
  - pose proof (run_place cf j s ts) as PL. pose proof (listing_read cf j s ts _ eq_refl) as BG.
    pose proof (reachable_store cf _ (irun_reach cf j s ts R)) as SI. rewrite irun_snoc.
    destruct (irun cf j s ts) as [[s1 ns] i] eqn:ER. cbn [fst snd] in *.
    assert (LT : forall t, worked cf j s (ts ++ [t]) i).
    { intros t'. destruct i as [known seen todo|todo|[[]|x|]]; cbn [worked] in *.
      - destruct IH as (past & H1 & H2). exists past. split; [exact H1|]. intros v Hv. now apply some_action_later, H2.
      - destruct IH as ((vs & H1 & H2) & past & H3 & H4). split; [exists vs; split; [exact H1|intros v Hv; now apply some_action_later, H2]|].
        exists past. split; [exact H3|]. intros u Hu. now apply some_action_later, H4.
      - destruct IH as (H0 & [H|((vs & H1 & H2) & H3)]); (split; [exact H0|]); [now left|right].
        split; [exists vs; split; [exact H1|intros v Hv; now apply some_action_later, H2]|]. intros Y u Hu. now apply some_action_later, H3.
      - exact I.
      - exact I. }
    destruct t as [o|]; cbn [iturn]; [exact (LT (Others o))|]. specialize (LT Mine).
    destruct (iact cf j s1 i) as [[s2 n] i2] eqn:EA. cbn [snd].
    destruct i as [known seen [|v todo]|[|u todo]|r]; cbn [iact] in EA.
    + injection EA as <- <- <-. cbn [worked] in LT. destruct LT as (past & T & H). rewrite app_nil_r in T. destruct (j_sync j) eqn:Y.
      * split; [eauto|]. exists []. split; [|intros u []]. destruct PL as (K & past' & T' & S & _). rewrite app_nil_r in T'.
        unfold missing. rewrite T'. cbn [text_ids app]. now rewrite K, S.
      * split; [exact BG|]. right. split; [eauto|]. intros X. rewrite Y in X. discriminate.
    + destruct (srs (import_one cf s1 (j_cal j) known v)) as [u|x|] eqn:E; cbn [ithen] in EA; injection EA as <- <- <-; [|exact I..].
      destruct LT as (past & T & H). exists (past ++ [v]). rewrite <- app_assoc. cbn [app]. split; [exact T|].
      intros w W. apply in_app_iff in W as [W|[<-|[]]]; [now apply H|].
      eapply some_action_now; [exact ER|cbn [iact]; rewrite E; reflexivity|].
      destruct (one_dealt cf s1 (j_cal j) known v u SI E) as [O Q]. exists u. split; [now apply one_uid in E|]. split; [|exact Q].
      destruct PL as (K & _). now rewrite <- K.
    + injection EA as <- <- <-. split; [exact BG|]. right. destruct LT as (H & past & M & H2). split; [exact H|]. intros _ u Hu.
      rewrite app_nil_r in M. apply H2. now rewrite <- M.
    + fold (idelete s1 u) in EA. destruct (del_cases s1 u SI) as [(G & D)|(r & G & D)].
      { rewrite D in EA. unfold srs in EA. cbn [snd ithen] in EA. injection EA as <- <- <-. exact I. }
      rewrite D in EA. unfold srs, snt, sst in EA. cbn [fst snd ithen] in EA. injection EA as <- <- <-.
      destruct LT as (H & past & M & H2). split; [exact H|]. exists (past ++ [u]). rewrite <- app_assoc. split; [exact M|].
      intros w W. apply in_app_iff in W as [W|[<-|[]]]; [now apply H2|].
      eapply some_action_now; [exact ER|cbn [iact]; fold (idelete s1 u); rewrite D; reflexivity|]. unfold sst, snt. cbn [fst snd].
      split; [rewrite has_event_dget, G; reflexivity|]. split; [|reflexivity]. rewrite has_event_dget. cbn [with_store sys_store].
      destruct SI as [ND _]. now rewrite dget_drem, String.eqb_refl.
    + injection EA as <- <- <-. exact LT.
Qed.

(** An import that returns has dealt with every component, in the state that the others had left
    by then; when synchronizing it has deleted everything that was in the calendar and is not in
    the text. *)
Theorem C172_success cf j s ts s' ns vs : reachable cf s -> irun cf j s ts = (s', ns, IOver (Ok tt)) -> j_text j = Ok (Some vs) ->
  (forall v, In v vs -> at_some_action cf j s ts (fun s1 n s2 => exists u, v_uid v = Some u /\ (n = [] -> s2 = s1)
     /\ exists r, get_event s2 u = Ok r
        /\ ((visible s (j_cal j) (j_period j) (j_criteria j) u /\ get_event s1 u = Ok r /\ updated (cf_tz cf) v (obj s2 r)
               /\ says_organizer (source_knows s1) (main_attendee s1 (j_cal j)) v (e_organizer (obj s2 r))
               /\ parts_updated (source_knows s1) v (obj s1 r) (obj s2 r))
            \/ (~ visible s (j_cal j) (j_period j) (j_criteria j) u /\ has_event s1 u = false /\ created (cf_tz cf) v (obj s2 r)
               /\ says_organizer (source_knows s1) (main_attendee s1 (j_cal j)) v (e_organizer (obj s2 r))
               /\ parts_created (source_knows s1) v (obj s2 r))
            \/ (~ visible s (j_cal j) (j_period j) (j_criteria j) u /\ get_event s1 u = Ok r /\ obj s2 r = obj s1 r))))
  /\ (j_sync j = true -> forall u, visible s (j_cal j) (j_period j) (j_criteria j) u -> ~ In u (text_ids (j_text j)) ->
        at_some_action cf j s ts (fun s1 n s2 => has_event s1 u = true /\ has_event s2 u = false /\ n = [NDeleted u])).
Proof.
  intros R E T. pose proof (run_worked cf j s ts R) as W. rewrite E in W. cbn [snd worked] in W. destruct W as (_ & [W|((vs' & T' & H) & M)]); [congruence|].
  assert (vs' = vs) by congruence. subst vs'. split.
  - intros v Hv. destruct (H v Hv) as (a & b & E1 & O). exists a, b. split; [exact E1|]. destruct (irun cf j s a) as [[s1 ns1] i1].
    destruct O as (n & s2 & i2 & E2 & u & V & (r & D & O) & Q). exists n, s2, i2. split; [exact E2|]. exists u. split; [exact V|]. split; [exact Q|].
    exists r. split; [now apply get_dget|]. rewrite !get_dget, has_event_dget, <- !known_visible.
    destruct O as [(O1 & O2 & O3 & O4 & O5)|[(O1 & O2 & O3 & O4 & O5)|(O1 & O2 & O3)]]; [left|right; left|right; right]; auto 6.
    rewrite O2. auto 6.
  - intros Y u V N. apply (M Y). unfold missing. apply filter_In. split; [now apply known_visible|].
    destruct (str_in u (text_ids (j_text j))) eqn:S; [|reflexivity]. apply str_in_iff in S. contradiction.
Qed.
Print Assumptions C172_success.

(** ** when it raises *)
(** what is wrong with a component that is met in [s1] after the calendar was listed in [s] *)
Definition bad_then (cf : config) (j : job) (s s1 : system) (v : vevent) (x : exn) : Prop :=
  (v_uid v = None /\ x = KeyError)
  \/ exists u, v_uid v = Some u /\
     ((visible s (j_cal j) (j_period j) (j_criteria j) u /\ has_event s1 u = false /\ x = KeyError)
      \/ (exists r, visible s (j_cal j) (j_period j) (j_criteria j) u /\ get_event s1 u = Ok r /\ bad_known cf s1 (j_cal j) v (obj s1 r) x)
      \/ (~ visible s (j_cal j) (j_period j) (j_criteria j) u /\ has_event s1 u = false /\ bad_new cf s1 (j_cal j) v x)).

Lemma one_bad cf j s s1 v : decides (srs (import_one cf s1 (j_cal j) (known_at j s) v)) (bad_then cf j s s1 v).
Proof.
  set (kn := known_at j s).
  destruct (v_uid v) as [u|] eqn:V.
  2:{ unfold import_one. rewrite V. right. exists KeyError. split; [reflexivity|]. unfold bad_then. rewrite V. intros y. split; [|auto].
      intros [[_ X]|(u & X & _)]; [exact X|discriminate]. }
  destruct (str_in u kn && negb (has_event s1 u))%bool eqn:G.
  - apply Bool.andb_true_iff in G as [K G]. apply Bool.negb_true_iff in G. right. exists KeyError. split.
    + unfold import_one. rewrite V, K. unfold import_existing. rewrite sbind_slift. unfold has_event in G. unfold get_event in *.
      destruct (dget (sys_store s1) u); [discriminate|]. reflexivity.
    + apply str_in_iff in K. apply known_visible in K. intros y. unfold bad_then. rewrite V. split.
      * intros [[X _]|(w & W & [(_ & _ & X)|[(r & _ & X & _)|(X & _)]])]; [discriminate|exact X| |]; injection W as <-; [|contradiction].
        unfold has_event in G. rewrite X in G. discriminate.
      * intros ->. right. exists u. auto.
  - rewrite one_narrow. eapply decides_ext; [apply one_decides|].
    + intros k. unfold just_this. rewrite V. destruct (str_in u kn) eqn:K; [|intros []]. intros [<-|[]]. cbn [andb] in G. now apply Bool.negb_false_iff in G.
    + intros y. cbn beta. unfold bad_in, bad_then. rewrite V.
      assert (NV : In u (just_this kn v) <-> visible s (j_cal j) (j_period j) (j_criteria j) u) by (rewrite (just_this_in kn v u V); apply known_visible).
      split; (intros [[X _]|(w & W & H)]; [discriminate|]; injection W as <-; right; exists u; split; [reflexivity|]).
      * destruct H as [(r & A & B & C)|(A & B & C)].
        -- right. left. exists r. rewrite get_dget, <- NV. auto.
        -- right. right. rewrite <- NV. auto.
      * destruct H as [(A & B & _)|[(r & A & B & C)|(A & B & C)]].
        -- exfalso. apply known_visible in A. fold kn in A. apply str_in_iff in A. rewrite A, B in G. discriminate.
        -- left. exists r. rewrite <- get_dget, NV. auto.
        -- right. rewrite NV. auto.
Qed.

(** An action raises exactly when its component is wrong or about an event of the calendar that
    somebody has deleted meanwhile, or when it is to delete an event that somebody has deleted
    meanwhile; and then it announces nothing, and changes at most the event of its component. *)
Theorem C172_raises cf j s ts x : reachable cf s ->
  let '(s1, ns, i) := irun cf j s ts in
  let '(s2, n, i2) := iact cf j s1 i in
  (forall r, i <> IOver r) ->
  (i2 = IOver (Raise x) <->
     (exists known seen v todo, i = ILoop known seen (v :: todo) /\ bad_then cf j s s1 v x)
     \/ (exists u todo, i = IGone (u :: todo) /\ has_event s1 u = false /\ x = KeyError))
  /\ i2 <> IOver OutOfFuel
  /\ (i2 = IOver (Raise x) -> n = [] /\ sys_store s2 = sys_store s1
        /\ forall k, (forall known seen v todo u, i = ILoop known seen (v :: todo) -> v_uid v = Some u ->
                        visible s (j_cal j) (j_period j) (j_criteria j) u -> get_event s1 u <> Ok k) -> obj s2 k = obj s1 k).
Proof.
  intros R. pose proof (run_place cf j s ts) as PL. pose proof (reachable_store cf _ (irun_reach cf j s ts R)) as SI.
  destruct (irun cf j s ts) as [[s1 ns] i]. cbn [fst snd] in *.
  destruct (iact cf j s1 i) as [[s2 n] i2] eqn:EA. intros NO. destruct i as [known seen [|v todo]|[|u todo]|r]; cbn [iact] in EA.
  - injection EA as <- <- <-.
    assert (X : (if j_sync j then IGone (filter (fun u => negb (str_in u seen)) known) else IOver (Ok tt)) <> IOver (Raise x)) by (destruct (j_sync j); discriminate).
    split; [|split; [destruct (j_sync j); discriminate|intros Y; contradiction]].
    split; [intros Y; contradiction|]. intros [(a & b & c & d & E & _)|(a & b & E & _)]; discriminate.
  - destruct PL as (K & _). pose proof (one_bad cf j s s1 v) as D. rewrite <- K in D. pose proof (one_cases cf s1 (j_cal j) known v SI) as OC. cbv zeta in OC.
    destruct (import_one cf s1 (j_cal j) known v) as [[sa na] q]. unfold sst, snt, srs in *. cbn [fst snd] in *.
    assert (Q : q = Raise x <-> bad_then cf j s s1 v x) by (now apply decides_iff).
    assert (NF : q <> OutOfFuel) by (destruct D as [(a & -> & _)|(y & -> & _)]; discriminate).
    injection EA as <- <- <-. split; [|split].
    + transitivity (q = Raise x); [destruct q; cbn [ithen]; split; congruence|]. rewrite Q. split.
      * intros B. left. eauto 6.
      * intros [(a & b & c & d & E & B)|(a & b & E & _)]; [|discriminate]. now injection E as <- <- <- <-.
    + destruct q; cbn [ithen]; congruence.
    + intros EX. assert (EQ : q = Raise x) by (destruct q; cbn [ithen] in EX; congruence). subst q.
      destruct OC as [(N & (E1 & _) & O)|[(u & r & _ & _ & _ & _ & X & _)|(u & e & _ & _ & _ & _ & X & _)]]; [|discriminate..].
      split; [exact N|]. split; [exact E1|]. intros k H. apply O. intros u V KU. rewrite <- get_dget. apply (H known seen v todo u eq_refl V). apply known_visible. now rewrite <- K.
  - injection EA as <- <- <-. split; [|split; [discriminate|discriminate]]. split; [discriminate|]. intros [(a & b & c & d & E & _)|(a & b & E & _)]; discriminate.
  - fold (idelete s1 u) in EA. destruct (del_cases s1 u SI) as [(G & D)|(r & G & D)]; rewrite D in EA; unfold srs, snt, sst in EA; cbn [fst snd ithen] in EA; injection EA as <- <- <-.
    + split; [|split; [discriminate|auto]]. split.
      * intros E. right. exists u, todo. split; [reflexivity|]. split; [exact G|]. congruence.
      * intros [(a & b & c & d & E & _)|(a & b & E & _ & ->)]; [discriminate|reflexivity].
    + split; [|split; discriminate]. split; [discriminate|]. intros [(a & b & c & d & E & _)|(a & b & E & H & _)]; [discriminate|].
      injection E as <- <-. rewrite has_event_dget, G in H. discriminate.
  - now destruct (NO r).
Qed.
Print Assumptions C172_raises.

(** ** if the others delete nothing *)
Definition harmless (t : turn) : Prop := match t with Others o => ~ deletes o | Mine => True end.

Lemma step_has cf s o u : ~ deletes o -> has_event s u = true -> has_event (sst (step cf s o)) u = true.
Proof.
  intros ND H. rewrite has_event_dget in *. apply (step_store (fun d => match dget d u with Some _ => true | None => false end = true) cf s o); [..|exact H].
  - intros d w r _ X. rewrite dget_dset. now destruct (String.eqb u w).
  - intros d w X. contradiction.
  - intros d r t _ _ X. rewrite dget_dset. now destruct (String.eqb u (generated_id cf t (List.length d))).
Qed.

Definition still_there (j : job) (s s1 : system) (i : importer) : Prop :=
  forall u, visible s (j_cal j) (j_period j) (j_criteria j) u ->
  match i with ILoop _ _ _ => True | IGone l => In u (text_ids (j_text j)) \/ In u l | IOver _ => In u (text_ids (j_text j)) end -> has_event s1 u = true.

Lemma missing_nodup j s : NoDup (missing j s).
Proof.
  unfold missing. apply NoDup_filter. unfold known_at. destruct (cal_events s (j_cal j) (j_period j) (j_criteria j)); [apply NoDup_nodup|constructor..].
Qed.

Lemma stays_there cf j s ts : reachable cf s -> Forall harmless ts ->
  let '(s1, _, i) := irun cf j s ts in still_there j s s1 i.
Proof.
  intros R. induction ts as [|t ts IH] using rev_ind.
  - intros _. unfold irun, still_there. cbn [fold_left]. intros u V _. apply known_visible in V. unfold known_at in V.
    destruct (cal_events s (j_cal j) (j_period j) (j_criteria j)) as [evs| |] eqn:E; [|destruct V..].
    exact (known_stored s (j_cal j) (j_period j) (j_criteria j) evs (reachable_store cf s R) E u V).
  - intros F. apply Forall_app in F as [F1 F2]. specialize (IH F1). inversion F2 as [|? ? FT _]; subst.
    pose proof (run_place cf j s ts) as PL. pose proof (reachable_store cf _ (irun_reach cf j s ts R)) as SI. rewrite irun_snoc.
    destruct (irun cf j s ts) as [[s1 ns] i]. cbn [fst snd] in *. destruct t as [o|]; cbn [iturn].
    + intros u V H. apply step_has; [exact FT|]. now apply IH.
    + pose proof (act_spares cf j s s1 i SI PL) as A. pose proof (act_place cf j s s1 i PL) as PL2.
      destruct (iact cf j s1 i) as [[s2 n] i2] eqn:EA. cbn [snd] in PL2. destruct A as (_ & A2 & A3 & _).
      intros u V H.
      assert (KEEP : In u (text_ids (j_text j)) -> has_event s1 u = true -> has_event s2 u = true).
      { intros T HE. unfold has_event in HE |- *. destruct (get_event s1 u) as [k| |] eqn:G; try discriminate. now rewrite (A2 u k G T). }
      destruct (in_dec string_dec u (text_ids (j_text j))) as [T|T].
      * apply KEEP; [exact T|]. apply IH; [exact V|]. destruct i; auto.
      * destruct i as [known seen [|v todo]|[|w todo]|r]; cbn [iact] in EA.
        -- injection EA as <- <- <-. apply IH; auto.
        -- assert (HE : has_event s1 u = true) by (apply IH; auto).
           destruct (one_cases cf s1 (j_cal j) known v SI) as [(_ & (E1 & _) & _)|[(w & r & _ & _ & _ & _ & _ & (E1 & _) & _)|(w & e & _ & _ & _ & _ & _ & E1)]];
             injection EA as <- _ _; rewrite has_event_dget in *.
           ++ now rewrite E1.
           ++ now rewrite E1.
           ++ rewrite E1. cbn [sys_store]. rewrite dget_dset. now destruct (String.eqb u w).
        -- injection EA as <- <- <-. contradiction.
        -- fold (idelete s1 w) in EA. destruct PL as (_ & _ & past & M). pose proof (missing_nodup j s) as ND. rewrite M in ND.
           destruct (del_cases s1 w SI) as [(G & D)|(r & G & D)]; rewrite D in EA; unfold srs, snt, sst in EA; cbn [fst snd ithen] in EA; injection EA as <- <- <-; [contradiction|].
           destruct H as [H|H]; [contradiction|]. assert (HE : has_event s1 u = true) by (apply IH; [exact V|right; now right]).
           assert (NW : u <> w). { intros ->. apply NoDup_remove_2 in ND. apply ND. apply in_app_iff. now right. }
           rewrite has_event_dget in *. cbn [with_store sys_store]. destruct SI as [NS _]. rewrite dget_drem by exact NS.
           destruct (String.eqb_spec u w); [contradiction|exact HE].
        -- injection EA as <- <- <-. contradiction.
Qed.

(** If the others delete nothing meanwhile, no event of the calendar is missing when the import
    comes to it: what the text mentions stays to the end, and once all components are dealt
    with the import returns. *)
Theorem C172_undisturbed cf j s ts : reachable cf s -> Forall harmless ts ->
  let '(s1, ns, i) := irun cf j s ts in
  (forall u, visible s (j_cal j) (j_period j) (j_criteria j) u -> In u (text_ids (j_text j)) -> has_event s1 u = true)
  /\ (forall known seen v todo u, i = ILoop known seen (v :: todo) -> v_uid v = Some u ->
        visible s (j_cal j) (j_period j) (j_criteria j) u -> has_event s1 u = true)
  /\ (forall todo, i = IGone todo -> snd (iact cf j s1 i) = match todo with [] => IOver (Ok tt) | _ :: l => IGone l end).
Proof.
  intros R F. pose proof (stays_there cf j s ts R F) as ST. pose proof (run_place cf j s ts) as PL.
  pose proof (reachable_store cf _ (irun_reach cf j s ts R)) as SI. destruct (irun cf j s ts) as [[s1 ns] i]. cbn [fst snd] in *.
  split; [|split].
  - intros u V T. apply ST; [exact V|]. destruct i; auto.
  - intros known seen v todo u -> _ V. now apply ST.
  - intros todo ->. destruct todo as [|u l]; [reflexivity|]. cbn [iact]. fold (idelete s1 u).
    assert (HE : has_event s1 u = true).
    { apply ST; [|right; now left]. destruct PL as (_ & _ & past & M). apply known_visible. assert (X : In u (missing j s)) by (rewrite M; apply in_app_iff; right; now left).
      unfold missing in X. now apply filter_In in X. }
    destruct (del_cases s1 u SI) as [(G & _)|(r & _ & ->)]; [congruence|reflexivity].
Qed.
Print Assumptions C172_undisturbed.

(** ** it ends *)
Definition mine (ts : list turn) : nat := List.length (filter (fun t => match t with Mine => true | _ => false end) ts).
Definition work (i : importer) : nat :=
  match i with ILoop known _ todo => List.length todo + List.length known + 2 | IGone l => List.length l + 1 | IOver _ => 0 end.

Lemma filter_le {A} (f : A -> bool) l : (List.length (filter f l) <= List.length l)%nat.
Proof. induction l as [|a l IH]; [apply le_n|]. cbn. destruct (f a); cbn; lia. Qed.

Lemma act_work cf j s i : (work (snd (iact cf j s i)) <= work i - 1)%nat.
Proof.
  destruct i as [known seen [|v todo]|[|u todo]|r]; cbn [iact snd].
  - destruct (j_sync j); cbn [work List.length]; [|lia]. pose proof (filter_le (fun u => negb (str_in u seen)) known). lia.
  - destruct (srs (import_one cf s (j_cal j) known v)); cbn [ithen work List.length]; lia.
  - cbn. lia.
  - destruct (srs _); cbn [ithen work List.length]; lia.
  - cbn. lia.
Qed.

(** Whatever the others do: after a bounded number of its own actions the import is over. *)
Theorem C172_ends cf j s : exists n, forall ts, (n <= mine ts)%nat -> exists r, snd (irun cf j s ts) = IOver r.
Proof.
  exists (work (ibegin j s)). intros ts H.
  assert (W : (work (snd (irun cf j s ts)) <= work (ibegin j s) - mine ts)%nat).
  { clear H. induction ts as [|t ts IH] using rev_ind; [cbn; lia|]. rewrite irun_snoc. unfold mine. rewrite filter_app, app_length. fold (mine ts).
    destruct (irun cf j s ts) as [[s1 ns] i]. cbn [snd] in IH. destruct t as [o|]; cbn [iturn filter List.length snd]; [lia|].
    pose proof (act_work cf j s1 i) as X. destruct (iact cf j s1 i) as [[s2 n] i2]. cbn [snd] in *. lia. }
  destruct (snd (irun cf j s ts)) as [k sn [|v td]|[|u td]|r]; cbn [work List.length] in W; [lia..|eauto].
Qed.
Print Assumptions C172_ends.

(** ** several imports at once *)
Lemma act_call cf j s i : fst (fst (iact cf j s i)) = s \/ exists o, fst (fst (iact cf j s i)) = sst (step cf s o).
Proof.
  destruct i as [known seen [|v todo]|[|u todo]|r]; cbn [iact fst]; try now left.
  - apply component_call.
  - rewrite sbind_slift. destruct (get_event s u) as [r| |]; [|now left..]. right. exists (ODelete r). reflexivity.
Qed.

(** Any number of imports and calls: for each of the imports the others are as people who make
    calls, so all the theorems above hold for it. *)
Theorem C172_many cf s0 ts : reachable cf s0 ->
  let '(s, l) := mrun cf s0 ts in
  reachable cf s
  /\ forall k j ns i, nth_error l k = Some (j, ns, i) -> exists s1 ts1, reachable cf s1 /\ irun cf j s1 ts1 = (s, ns, i).
Proof.
  intros R. induction ts as [|t ts IH] using rev_ind.
  - split; [exact R|]. intros k j ns i H. destruct k; discriminate.
  - unfold mrun in *. rewrite fold_left_app. cbn [fold_left]. destruct (fold_left (mstep cf) ts (s0, [])) as [s l]. destruct IH as [RS IH].
    destruct t as [o|j0|k0]; cbn [mstep].
    + split; [now apply reachable_after|]. intros k j ns i H. destruct (IH k j ns i H) as (s1 & ts1 & R1 & E). exists s1, (ts1 ++ [Others o]).
      split; [exact R1|]. rewrite irun_snoc, E. reflexivity.
    + split; [exact RS|]. intros k j ns i H. destruct (Nat.ltb_spec k (List.length l)) as [L|L].
      * rewrite nth_error_app1 in H by exact L. now apply (IH k).
      * rewrite nth_error_app2 in H by exact L. destruct (k - List.length l)%nat as [|d]; [|destruct d; discriminate]. cbn in H. injection H as <- <- <-.
        exists s, []. split; [exact RS|reflexivity].
    + destruct (nth_error l k0) as [[[j0 ns0] i0]|] eqn:E0; [|split; [exact RS|exact IH]].
      destruct (iact cf j0 s i0) as [[s' n] i'] eqn:EA.
      assert (C : s' = s \/ exists o, s' = sst (step cf s o)) by (pose proof (act_call cf j0 s i0) as C; rewrite EA in C; exact C).
      split; [destruct C as [->|(o & ->)]; [exact RS|now apply reachable_after]|].
      intros k j ns i H. destruct (Nat.eq_dec k k0) as [->|NK].
      * assert (H' : (j, ns, i) = (j0, ns0 ++ n, i')).
        { apply (nth_error_nth _ _ (j, ns, i)) in H. rewrite replace_nth_get, Nat.eqb_refl in H. cbn [andb] in H.
          assert (L : (k0 < List.length l)%nat) by (apply nth_error_Some; congruence). apply Nat.ltb_lt in L. rewrite L in H. now symmetry. }
        injection H' as -> -> ->. destruct (IH k0 j0 ns0 i0 E0) as (s1 & ts1 & R1 & E). exists s1, (ts1 ++ [Mine]). split; [exact R1|].
        rewrite irun_snoc, E. cbn [iturn]. now rewrite EA.
      * assert (H' : nth_error l k = Some (j, ns, i)).
        { assert (L : (k < List.length l)%nat) by (rewrite <- (replace_nth_length k0 l (j0, ns0 ++ n, i')); apply nth_error_Some; congruence).
          apply (nth_error_nth _ _ (j, ns, i)) in H. rewrite replace_nth_get in H. destruct (Nat.eqb_spec k k0); [contradiction|]. cbn [andb] in H.
          rewrite <- H. now apply nth_error_nth'. }
        destruct (IH k j ns i H') as (s1 & ts1 & R1 & E). destruct C as [->|(o & ->)].
        -- eauto.
        -- exists s1, (ts1 ++ [Others o]). split; [exact R1|]. rewrite irun_snoc, E. reflexivity.
Qed.
Print Assumptions C172_many.

(** ** examples *)
(** ann's calendar with a1 and a2; the text mentions a1, b1 (bob's) and n1; meanwhile bob makes
    n1 and z1 themselves *)
Definition ir_job : job := mkJob 0 x_text (None, None) None true.
Definition ir_sp : spec := p_spec (p_at 732503 9) (Some HOUR) false bob [].
Definition ir_turns : list turn :=
  [Mine; Others (OCreate (Some "n1") ir_sp 0); Mine; Others (OCreate (Some "z1") ir_sp 0); Mine; Mine; Mine; Mine]%string.

Lemma ir_ran : let w := irun cf0 ir_job (run cf0 office) ir_turns in
  snd w = IOver (Ok tt) /\ snd (fst w) = [NModified "a1"; NDeleted "a2"]%string
  /\ map (has_event (fst (fst w))) ["a1"; "a2"; "b1"; "n1"; "z1"]%string = [true; false; true; true; true]
  /\ get_event (fst (fst w)) "n1" = Ok 3%nat /\ e_organizer (obj (fst (fst w)) 3) = Some "bob"%string.
Proof. vm_compute. auto 10. Qed.

Lemma ir_harmless : Forall harmless ir_turns.
Proof. repeat constructor; cbn; auto. Qed.

Example C172_case : reachable cf0 (run cf0 office) /\ Forall harmless ir_turns
  /\ (exists s' ns, irun cf0 ir_job (run cf0 office) ir_turns = (s', ns, IOver (Ok tt)))
  /\ (exists vs, j_text ir_job = Ok (Some vs)) /\ mine ir_turns = 6%nat /\ mine ir_turns <> List.length ir_turns.
Proof.
  split; [apply run_reachable|]. split; [exact ir_harmless|]. pose proof ir_ran as (H & _). cbv zeta in H.
  destruct (irun cf0 ir_job (run cf0 office) ir_turns) as [[s' ns] i]. cbn [snd] in H. subst i. split; [eauto|]. split; [eexists; reflexivity|].
  split; [reflexivity|]. cbn. discriminate.
Qed.

(** two synchronizing imports of the same text at once, and bob's z1 in between *)
Definition ir_both : list mturn :=
  [MBegin ir_job; MAct 0; MBegin ir_job; MAct 1; MAct 1; MCall (OCreate (Some "z1"%string) ir_sp 0); MAct 1; MAct 0; MAct 0; MAct 0; MAct 0;
   MAct 1; MAct 0].
Example C172_many_case : let w := mrun cf0 (run cf0 office) ir_both in
  map (fun x => snd (fst x)) (snd w) = [[NModified "a1"; NDeleted "a2"]; [NCreated "n1"]]%string
  /\ map (has_event (fst w)) ["a1"; "a2"; "b1"; "n1"; "z1"]%string = [true; false; true; true; true]
  /\ snd (nth 0 (snd w) (ir_job, [], IOver OutOfFuel)) = IOver (Ok tt).
Proof. vm_compute. auto 10. Qed.

(** ** refuted *)
(** The import can fail where alone it would return: here somebody deletes a1 just after the
    calendar is listed.  The import raises KeyError, and n1 is not created, nor a2 deleted. *)
Theorem C172_returns_refuted : exists cf j s r ns s1 i1, reachable cf s
  /\ srs (step cf s (OImport (j_cal j) (j_text j) (j_period j) (j_criteria j) (j_sync j))) = Ok tt
  /\ get_event s "a1" = Ok r
  /\ srs (step cf s (ODelete r)) = Ok tt
  /\ srs (step cf (sst (step cf s (ODelete r))) (OImport (j_cal j) (j_text j) (j_period j) (j_criteria j) (j_sync j))) = Ok tt
  /\ irun cf j s [Others (ODelete r); Mine] = (s1, ns, i1)
  /\ i1 = IOver (Raise KeyError) /\ ns = [] /\ has_event s1 "n1" = false /\ has_event s1 "a2" = true.
Proof.
  pose (w := irun cf0 ir_job (run cf0 office) [Others (ODelete 0); Mine]).
  assert (H : snd w = IOver (Raise KeyError) /\ snd (fst w) = [] /\ has_event (fst (fst w)) "n1" = false /\ has_event (fst (fst w)) "a2" = true)
    by (vm_compute; auto).
  exists cf0, ir_job, (run cf0 office), 0%nat, (snd (fst w)), (fst (fst w)), (snd w).
  split; [apply run_reachable|]. split; [vm_compute; reflexivity|]. split; [vm_compute; reflexivity|]. split; [vm_compute; reflexivity|].
  split; [vm_compute; reflexivity|]. split; [|exact H]. unfold w. clear. destruct (irun cf0 ir_job (run cf0 office) [Others (ODelete 0); Mine]) as [[a b] c]. reflexivity.
Qed.
Print Assumptions C172_returns_refuted.

(** It can delete an event that is not in the calendar: here ann's a2 is deleted and bob makes
    another event with that id, which ann's calendar does not have; the import deletes it. *)
Theorem C172_own_refuted : exists cf j s ts s1 ns i s2 i2, reachable cf s
  /\ irun cf j s ts = (s1, ns, i) /\ iact cf j s1 i = (s2, [NDeleted "a2"%string], i2)
  /\ has_event s1 "a2" = true /\ has_event s2 "a2" = false
  /\ (exists evs, cal_events s1 (j_cal j) (j_period j) (j_criteria j) = Ok evs /\ ~ In "a2"%string (map e_uid evs)).
Proof.
  pose (ts := [Mine; Mine; Mine; Mine; Others (ODelete 1); Others (OCreate (Some "a2"%string) ir_sp 0)]).
  pose (w := irun cf0 ir_job (run cf0 office) ts). pose (w2 := iact cf0 ir_job (fst (fst w)) (snd w)).
  assert (H : snd (fst w2) = [NDeleted "a2"%string] /\ has_event (fst (fst w)) "a2" = true /\ has_event (fst (fst w2)) "a2" = false
    /\ match cal_events (fst (fst w)) 0 (None, None) None with Ok evs => existsb (String.eqb "a2") (map e_uid evs) = false | _ => False end)
    by (vm_compute; auto).
  exists cf0, ir_job, (run cf0 office), ts, (fst (fst w)), (snd (fst w)), (snd w), (fst (fst w2)), (snd w2).
  split; [apply run_reachable|]. split; [unfold w; clear; destruct (irun cf0 ir_job (run cf0 office) ts) as [[a b] c]; reflexivity|].
  destruct H as (H1 & H2 & H3 & H4). rewrite <- H1. split; [unfold w2; clear; destruct (iact cf0 ir_job (fst (fst w)) (snd w)) as [[a b] c]; reflexivity|].
  split; [exact H2|]. split; [exact H3|]. cbn [ir_job j_cal j_period j_criteria].
  revert H4. clear. generalize (fst (fst w)) as s1. intros s1. destruct (cal_events s1 0 (None, None) None) as [evs| |]; [|intros []..].
  intros E. exists evs. split; [reflexivity|]. intros X. assert (existsb (String.eqb "a2") (map e_uid evs) = true); [|congruence].
  apply existsb_exists. exists "a2"%string. split; [exact X|reflexivity].
Qed.
Print Assumptions C172_own_refuted.
