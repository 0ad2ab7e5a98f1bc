(** Statements added where a theorem leant on a definition of the model, found by
    seeded bugs and by going through the statements: notifications of an import
    (C49), the default organizer (C61), occurrences of an attendee (C34), criteria
    as they are given (C32). *)
From Verif Require Import Base PyDate DateFacts Recurrent RecurMisc CalTime TimeProofs Event Storage ICal System
  QueryProofs BlockProofs EventProofs SpecProofs SystemProofs StoreProofs IdProofs ImportProofs PropEvent PropSystem
  ICalProofs ImportContent ImportTwice PropQuery PropICal PropImport PropCalendar.
From Coq Require Import ZifyBool.
Ltac Zify.zify_post_hook ::= Z.div_mod_to_equations.
Local Opaque ord2ymd year_of month_of day_of ymd2ord days_in_month is_leap.

(** * C49: an import changes and reports what willModify says, no more *)
(** nothing to modify anywhere in the text: nothing changes, nothing is reported *)
Theorem C49_import_quiet cf s c vs p cr : (exists evs, cal_events s c p cr = Ok evs) ->
  (forall v, In v vs -> exists u r sp, v_uid v = Some u /\ visible s c p cr u /\ get_event s u = Ok r
     /\ import_spec (cf_tz cf) (source_knows s) (main_attendee s c) v = Ok sp /\ will_modify sp (obj s r) = Ok false) ->
  step cf s (OImport c (Ok (Some vs)) p cr false) = (s, [], Ok tt).
Proof.
  intros [evs CE] H. cbn [step]. unfold import_cal. rewrite sbind_slift, CE. rewrite sbind_slift.
  set (known := nodup string_dec (map e_uid evs)).
  assert (L : forall vs', (forall v, In v vs' -> In v vs) -> exists us, import_loop cf s c known vs' = (s, [], Ok us)).
  { induction vs' as [|v vs' IH]; intros I; [now exists []|]. cbn [import_loop].
    destruct (H v (I v (or_introl eq_refl))) as (u & r & sp & U & V & G & IS & W).
    destruct IH as [us IH]; [intros x Hx; apply I; now right|].
    assert (K : str_in u known = true).
    { apply str_in_iff. unfold known. apply known_in. destruct V as (evs' & e & E1 & E2 & E3).
      assert (evs' = evs) by congruence. subst evs'. eauto. }
    assert (X : import_one cf s c known v = (s, [], Ok u)).
    { unfold import_one. rewrite U, K. unfold import_existing. rewrite sbind_slift, G. rewrite sbind_slift, IS. rewrite sbind_slift, W. reflexivity. }
    rewrite X, sbind_ok, IH, sbind_ok. eexists. reflexivity. }
  destruct (L vs (fun v H => H)) as [us E]. rewrite E, sbind_ok. reflexivity.
Qed.
Print Assumptions C49_import_quiet.

(** one known event: reported exactly if willModify says so *)
Theorem C49_import_reports cf s c v u r sp p cr s' n : reachable cf s ->
  v_uid v = Some u -> visible s c p cr u -> get_event s u = Ok r ->
  import_spec (cf_tz cf) (source_knows s) (main_attendee s c) v = Ok sp ->
  step cf s (OImport c (Ok (Some [v])) p cr false) = (s', n, Ok tt) ->
  (will_modify sp (obj s r) = Ok false /\ s' = s /\ n = [])
  \/ (will_modify sp (obj s r) = Ok true /\ obj s' r = mev (set_on_object sp (obj s r)) /\ n = [NModified u]).
Proof.
  intros H U V G IS E. destruct V as (evs & e & CE & He & Hu).
  assert (K : str_in u (nodup string_dec (map e_uid evs)) = true) by (apply str_in_iff, known_in; eauto).
  destruct (will_modify sp (obj s r)) as [[|]|x|] eqn:W.
  - right. split; [reflexivity|]. cbn [step] in E. unfold import_cal in E. rewrite sbind_slift, CE in E. rewrite sbind_slift in E. cbn [import_loop] in E.
    unfold import_one in E. rewrite U, K in E. unfold import_existing in E. rewrite sbind_slift, G in E. rewrite sbind_slift, IS in E.
    rewrite sbind_slift, W in E. unfold get_event in G. destruct (dget (sys_store s) u) as [r0|] eqn:D; [|discriminate].
    assert (r0 = r) by congruence. subst r0. apply reachable_store in H. destruct H as [_ I]. destruct (I u r D) as (L & UU & _).
    pose proof (set_on_object_notes sp (obj s r)) as N. pose proof (set_on_object_uid sp (obj s r)) as U'.
    unfold on_event in E. unfold mnotes, mev in *. destruct (set_on_object sp (obj s r)) as [[e1 n1] x]. cbn [fst snd] in *. subst n1.
    destruct x as [[]|x|]; cbn -[obj] in E; try discriminate.
    assert (O : obj (with_heap s (replace_nth r (sys_heap s) e1)) r = e1).
    { rewrite obj_heap, replace_nth_get, Nat.eqb_refl. destruct (Nat.ltb_spec r (List.length (sys_heap s))); [reflexivity|lia]. }
    rewrite O in E. assert (S' : s' = with_heap s (replace_nth r (sys_heap s) e1)) by congruence. subst s'. split; [exact O|].
    rewrite <- UU, <- U'. congruence.
  - left. split; [reflexivity|].
    assert (X : step cf s (OImport c (Ok (Some [v])) p cr false) = (s, [], Ok tt)).
    { apply C49_import_quiet; [eauto|]. intros w [<-|[]]. exists u, r, sp. split; [exact U|]. split; [exists evs, e; auto|]. auto. }
    rewrite X in E. split; congruence.
  - exfalso. cbn [step] in E. unfold import_cal in E. rewrite sbind_slift, CE in E. rewrite sbind_slift in E. cbn [import_loop] in E.
    unfold import_one in E. rewrite U, K in E. unfold import_existing in E. rewrite sbind_slift, G in E. rewrite sbind_slift, IS in E.
    rewrite sbind_slift, W in E. cbn in E. congruence.
  - exfalso. cbn [step] in E. unfold import_cal in E. rewrite sbind_slift, CE in E. rewrite sbind_slift in E. cbn [import_loop] in E.
    unfold import_one in E. rewrite U, K in E. unfold import_existing in E. rewrite sbind_slift, G in E. rewrite sbind_slift, IS in E.
    rewrite sbind_slift, W in E. cbn in E. congruence.
Qed.
Print Assumptions C49_import_reports.

(** importing again what is already there, and a new title for it *)
Example C49_import_case :
  let m title := step cf0 (run cf0 office) (OImport 0 (Ok (Some [x_event "a1" 732500 title []])) (None, None) None false) in
  m "Meeting"%string = (run cf0 office, [], Ok tt)
  /\ snt (m "Other"%string) = [NModified "a1"%string] /\ srs (m "Other"%string) = Ok tt
  /\ e_title (obj (sst (m "Other"%string)) 0) = "Other"%string.
Proof. vm_compute. auto. Qed.

(** * C61: where the text names no known organizer, it is somebody of this calendar *)
Theorem C61_default_organizer cf s h c vs p cr sync s' n v u : history cf s h -> (c < calendars h)%nat -> NoDup (import_uids vs) ->
  step cf s (OImport c (Ok (Some vs)) p cr sync) = (s', n, Ok tt) -> In v vs -> v_uid v = Some u ->
  visible s c p cr u \/ has_event s u = false ->
  (forall i, v_organizer v = Some i -> registered h i = None) ->
  exists r, get_event s' u = Ok r
    /\ match get_organizer_id (obj s' r) with
       | Some i => member h c i = true /\ registered h i <> None
       | None => forall i, member h c i = false
       end.
Proof.
  intros H L ND E Hv V W O.
  destruct (C61_content cf s c vs p cr sync s' n v u (ex_intro _ h H) ND E Hv V W) as (r & G & _ & X).
  exists r. split; [exact G|]. pose proof (C67_main cf s h c H L) as M. unfold says_organizer in X.
  assert (D : main_attendee s c = Ok (get_organizer_id (obj s' r))).
  { destruct (v_organizer v) as [i|]; [|exact X]. pose proof (O i eq_refl) as N. 
    assert (K : source_knows s i = false).
    { unfold source_knows. rewrite (history_registered cf s h H i), N. reflexivity. }
    rewrite K in X. exact X. }
  rewrite D in M. exact M.
Qed.
Print Assumptions C61_default_organizer.

(** no organizer in the text, and an unknown one *)
Example C61_default_case : let s := fst (play cf0 told) in let h := snd (play cf0 told) in
  let v o := mkV (Some "n9"%string) (Some (IDate 732510)) None None (Some "New"%string) None None None o [] [] None None None None in
  history cf0 s h /\ (0 < calendars h)%nat /\ has_event s "n9" = false /\ registered h "zoe" = None
  /\ forall o, o = None \/ o = Some "zoe"%string ->
     let m := step cf0 s (OImport 0 (Ok (Some [v o])) (None, None) None false) in
     srs m = Ok tt /\ exists r, get_event (sst m) "n9" = Ok r /\ get_organizer_id (obj (sst m) r) = ann.
Proof.
  split; [apply play_history|]. split; [vm_compute; lia|]. split; [reflexivity|]. split; [reflexivity|].
  intros o [-> | ->]; (split; [reflexivity|]; exists 3%nat; vm_compute; auto).
Qed.

(** * C34: the occurrences of one attendee *)
Theorem C34_attendee_occurrences_exact : forall F evs a b pe c l, evs_ok evs ->
  attendee_occurrences F evs a (Some b, Some pe) c = Ok l ->
  forall o, In o l <-> exists e t d, In e evs /\ wanted c (Some [a]) None e /\ e_duration e = Some d
     /\ o = mkOcc t (Some d) e /\ occurs e t /\ b < t + d /\ t < pe.
Proof. intros F evs a b pe c l OK E. exact (C34_occurrences_exact F evs [a] b pe c l OK E). Qed.
Print Assumptions C34_attendee_occurrences_exact.

Example C34_attendee_occurrences_case : evs_ok store
  /\ attendee_occurrences 50 store PropQuery.bob (Some (at_ 0 0), Some (at_ 2 0)) None
     = Ok [mkOcc (at_ 0 10) (Some (2 * HOUR)) ev1; mkOcc (at_ 0 16) (Some HOUR) ev2; mkOcc (at_ 1 16) (Some HOUR) ev2]
  /\ attendee_occurrences 50 store alice (Some (at_ 0 0), Some (at_ 2 0)) None
     = Ok [mkOcc (at_ 0 10) (Some (2 * HOUR)) ev1; mkOcc (at_ 1 22) (Some (4 * HOUR)) ev3].
Proof. split; [exact store_ok|]. vm_compute. auto. Qed.

(** * C32: criteria as they are given: nobody, one attendee, or a list *)
(** the attendee takes part with the status and role asked for *)
Definition takes_part (e : event) (st ro : option string) (a : attendee) : Prop :=
  exists i s, a = Some i /\ dget (e_state e) i = Some s /\ (forall x, st = Some x -> s = x)
    /\ (forall x, ro = Some x -> dget (e_role e) i = Some x).

Theorem C32_as_given : forall arg st ro cats org e b,
  match_criteria (mk_criteria arg st ro cats org) e = Ok b ->
  (b = true <->
    (forall l, cats = Some l -> exists x, In x l /\ In x (e_categories e))
    /\ (forall o, org = Some o -> exists i, o = Some i /\ e_organizer e = Some i)
    /\ match arg with
       | ANone => True
       | AOne a => takes_part e st ro a
       | AMany l => exists a, In a l /\ takes_part e st ro a
       end).
Proof.
  intros arg st ro cats org e b E. rewrite (C32_criteria_match _ _ _ E). unfold satisfies, mk_criteria. cbn.
  assert (X : (forall l, norm_attendees arg = Some l -> exists i s, In (Some i) l /\ attends e i s
       /\ (forall x, st = Some x -> s = x) /\ (forall x, ro = Some x -> dget (e_role e) i = Some x))
     <-> match arg with ANone => True | AOne a => takes_part e st ro a | AMany l => exists a, In a l /\ takes_part e st ro a end).
  { unfold takes_part, attends. destruct arg as [|a|l]; cbn; split.
    - auto.
    - intros _ l X. discriminate.
    - intros H. destruct (H [a] eq_refl) as (i & s & [->|[]] & H1 & H2 & H3). exists i, s. auto.
    - intros (i & s & -> & H1 & H2 & H3) l X. injection X as <-. exists i, s. split; [now left|auto].
    - intros H. destruct (H l eq_refl) as (i & s & H0 & H1 & H2 & H3). exists (Some i). split; [exact H0|]. exists i, s. auto.
    - intros (a & H0 & i & s & -> & H1 & H2 & H3) l' X. injection X as <-. exists i, s. auto. }
  rewrite X. tauto.
Qed.
Print Assumptions C32_as_given.

Example C32_as_given_case :
  match_criteria (mk_criteria (AOne PropQuery.bob) (Some "ACCEPTED"%string) None None None) ev1 = Ok false
  /\ match_criteria (mk_criteria (AOne PropQuery.bob) (Some "DECLINED"%string) None (Some ["work"%string]) (Some alice)) ev1 = Ok true
  /\ match_criteria (mk_criteria (AMany [PropQuery.bob; alice]) (Some "ACCEPTED"%string) None None None) ev1 = Ok true.
Proof. vm_compute. auto. Qed.
