(** Property theorems C121 (and, with it, C66 for repeated ids): exactly when an import changes and reports
    nothing, whatever ids the text repeats. *)
From Verif Require Import Base PyDate DateFacts Recurrent CalTime TimeProofs Event Storage ICal System
  QueryProofs EventProofs SpecProofs SystemProofs StoreProofs IdProofs ImportProofs PropEvent PropSystem
  ICalProofs ImportContent ImportTwice PropICal PropImport PropRepeat PropCalendar PropExact PropRound PropAgain PropEdge PropAccept.
From Coq Require Import ZifyBool.
Ltac Zify.zify_post_hook ::= Z.div_mod_to_equations.
Local Opaque ord2ymd year_of month_of day_of ymd2ord days_in_month is_leap.

(** ** Specification *)
(** the event is as the component says: the attributes agree, the organizer has
    accepted and is a required participant, and so is everybody listed, with the
    status listed *)
Definition as_said (cf : config) (s : system) (c : nat) (v : vevent) (e : event) : Prop :=
  readable_text cf s c v /\ all_known (source_knows s) v
  /\ forall sp, import_spec (cf_tz cf) (source_knows s) (main_attendee s c) v = Ok sp ->
     attrs_agree sp e /\ settled_organizer sp e /\ lines_settled v e.

(** ** Proofs *)
Lemma as_said_iff cf s c v e : as_said cf s c v e <->
  exists sp, import_spec (cf_tz cf) (source_knows s) (main_attendee s c) v = Ok sp /\ will_modify sp e = Ok false.
Proof.
  split.
  - intros (RT & AK & H). apply spec_read in RT as (sp & ES). exists sp. split; [exact ES|]. destruct (H sp ES) as (A & O & L).
    apply C49_no_iff. split; [exact A|]. split; [exact O|]. rewrite (import_spec_entries _ _ _ _ _ ES). now apply settled_lines_iff.
  - intros (sp & ES & W). apply C49_no_iff in W as (A & O & L). rewrite (import_spec_entries _ _ _ _ _ ES) in L.
    assert (AK : all_known (source_knows s) v).
    { intros i ps ro Hi. rewrite Forall_forall in L. specialize (L (line_entry (source_knows s) (i, ps, ro)) (in_map _ _ _ Hi)).
      cbn in L. destruct L as (j & J & _). destruct (source_knows s i); [reflexivity|discriminate]. }
    split; [apply spec_read; eauto|]. split; [exact AK|]. intros sp' ES'. assert (sp' = sp) by congruence. subst sp'.
    split; [exact A|]. split; [exact O|]. eapply settled_lines_iff; eassumption.
Qed.

Lemma import_one_silent cf s c known v u : (forall k, In k known -> has_event s k = true) ->
  snt (import_one cf s c known v) = [] -> srs (import_one cf s c known v) = Ok u ->
  v_uid v = Some u /\ sst (import_one cf s c known v) = s
  /\ exists r, dget (sys_store s) u = Some r /\ (In u known -> as_said cf s c v (obj s r)).
Proof.
  intros KN. unfold import_one. destruct (v_uid v) as [w|]; [|discriminate]. destruct (str_in w known) eqn:K.
  - unfold import_existing. rewrite sbind_slift. unfold get_event. destruct (dget (sys_store s) w) as [r|] eqn:D; [|discriminate].
    rewrite sbind_slift. destruct (import_spec _ _ _ v) as [sp| |] eqn:IS; try discriminate. rewrite sbind_slift.
    destruct (will_modify sp (obj s r)) as [[|]| |] eqn:W; try discriminate.
    + intros N R. exfalso. revert N R. destruct (on_event s r (set_on_object sp)) as [[s1 n1] [x|x|]]; cbn [sbind]; try discriminate.
      unfold snt. cbn. destruct n1; discriminate.
    + intros _ R. cbn in R. injection R as <-. split; [reflexivity|]. split; [reflexivity|]. exists r. split; [exact D|]. intros _.
      apply as_said_iff. eauto.
  - destruct (has_event s w) eqn:HE.
    + intros _ R. cbn in R. injection R as <-. split; [reflexivity|]. split; [reflexivity|]. rewrite has_event_dget in HE.
      destruct (dget (sys_store s) w) as [r|]; [|discriminate]. exists r. split; [reflexivity|]. intros X. apply str_in_iff in X. congruence.
    + unfold import_new. rewrite sbind_slift. destruct (import_spec _ _ _ v) as [sp| |]; try discriminate. unfold create_event.
      destruct (new_event w sp) as [e| |]; try discriminate.
Qed.

Lemma import_loop_silent cf c known l : forall s us, (forall k, In k known -> has_event s k = true) ->
  snt (import_loop cf s c known l) = [] -> srs (import_loop cf s c known l) = Ok us ->
  us = import_uids l /\ sst (import_loop cf s c known l) = s
  /\ forall v, In v l -> exists u r, v_uid v = Some u /\ dget (sys_store s) u = Some r /\ (In u known -> as_said cf s c v (obj s r)).
Proof.
  induction l as [|v l IH]; intros s us KN N R; cbn [import_loop] in *.
  - cbn in R. injection R as <-. split; [reflexivity|]. split; [reflexivity|]. intros v [].
  - apply sbind_inv_ok in R as (u & R1 & R2 & R3 & R4). rewrite R4 in N. apply app_eq_nil in N as [N1 N2].
    destruct (import_one_silent cf s c known v u KN N1 R1) as (V & S1 & r & D & A). rewrite S1 in *.
    apply sbind_inv_ok in R2 as (us' & R5 & R6 & R7 & R8). rewrite R8 in N2. apply app_eq_nil in N2 as [N2 _].
    destruct (IH s us' KN N2 R5) as (U & S2 & F). cbn in R6. injection R6 as <-. rewrite S2 in *. rewrite R3, R7. split; [|split; [reflexivity|]].
    + unfold import_uids. cbn [flat_map]. rewrite V. cbn. now f_equal.
    + intros w [<-|W]; [exists u, r; auto|auto].
Qed.

Lemma import_loop_quiet cf c known l s :
  (forall v, In v l -> exists u r, v_uid v = Some u /\ dget (sys_store s) u = Some r /\ (In u known -> as_said cf s c v (obj s r))) ->
  import_loop cf s c known l = (s, [], Ok (import_uids l)).
Proof.
  induction l as [|v l IH]; intros H; [reflexivity|]. cbn [import_loop].
  destruct (H v (or_introl eq_refl)) as (u & r & V & D & A).
  assert (X : import_one cf s c known v = (s, [], Ok u)).
  { unfold import_one. rewrite V. destruct (str_in u known) eqn:K.
    - apply str_in_iff in K. destruct (proj1 (as_said_iff cf s c v (obj s r)) (A K)) as (sp & IS & W).
      unfold import_existing. rewrite sbind_slift. unfold get_event. rewrite D, sbind_slift, IS, sbind_slift, W. reflexivity.
    - rewrite has_event_dget, D. reflexivity. }
  rewrite X, sbind_ok. rewrite IH by (intros w W; apply H; now right). rewrite sbind_ok. unfold import_uids. cbn [flat_map]. rewrite V. reflexivity.
Qed.

(** ** Theorems *)
(** An import returns without a word exactly if the calendar can be read, every
    component has an id that is stored, every component about an event of the
    calendar finds it as it says, and (when synchronizing) the text has all of
    the calendar's events.  It then changes nothing at all.  No assumption is
    made on repeated ids. *)
Theorem C121_silent_iff cf s c vs p cr sync : reachable cf s ->
  let m := step cf s (OImport c (Ok (Some vs)) p cr sync) in
  (snt m = [] /\ srs m = Ok tt <->
   (exists evs, cal_events s c p cr = Ok evs)
   /\ (forall v, In v vs -> exists u r, v_uid v = Some u /\ get_event s u = Ok r
         /\ (visible s c p cr u -> as_said cf s c v (obj s r)))
   /\ (sync = true -> forall u, visible s c p cr u -> exists v, In v vs /\ v_uid v = Some u))
  /\ (snt m = [] /\ srs m = Ok tt -> sst m = s).
Proof.
  intros H. pose proof (reachable_store cf s H) as I. cbv zeta. cbn [step].
  assert (UIDS : forall u, In u (import_uids vs) <-> exists v, In v vs /\ v_uid v = Some u).
  { intros u. unfold import_uids. rewrite in_flat_map. split; intros (v & V1 & V2); exists v; (split; [exact V1|]).
    - destruct (v_uid v) as [w|]; [|destruct V2]. destruct V2 as [<-|[]]. reflexivity.
    - rewrite V2. now left. }
  assert (GE : forall u r, get_event s u = Ok r <-> dget (sys_store s) u = Some r).
  { intros u r. unfold get_event. destruct (dget (sys_store s) u); split; congruence. }
  assert (FWD : snt (import_cal cf s c (Ok (Some vs)) p cr sync) = [] /\ srs (import_cal cf s c (Ok (Some vs)) p cr sync) = Ok tt ->
     exists evs, cal_events s c p cr = Ok evs
     /\ (forall v, In v vs -> exists u r, v_uid v = Some u /\ dget (sys_store s) u = Some r
           /\ (In u (nodup string_dec (map e_uid evs)) -> as_said cf s c v (obj s r)))
     /\ (sync = true -> forall u, In u (nodup string_dec (map e_uid evs)) -> In u (import_uids vs))
     /\ sst (import_cal cf s c (Ok (Some vs)) p cr sync) = s).
  { intros [N R]. unfold import_cal in *. rewrite sbind_slift in *. destruct (cal_events s c p cr) as [evs| |] eqn:CE; try discriminate.
    rewrite sbind_slift in *. exists evs. split; [reflexivity|]. set (known := nodup string_dec (map e_uid evs)) in *.
    assert (KN : forall k, In k known -> has_event s k = true) by (apply (known_stored s c p cr evs I CE)).
    apply sbind_inv_ok in R as (us & R1 & R2 & R3 & R4). rewrite R4 in N. apply app_eq_nil in N as [N1 N2].
    destruct (import_loop_silent cf c known vs s us KN N1 R1) as (-> & S1 & F). rewrite S1 in *. rewrite R3.
    split; [exact F|]. destruct sync; [|split; [discriminate|reflexivity]].
    destruct (delete_loop_ok (filter (fun u => negb (str_in u (import_uids vs))) known) s I) as (s2 & E & _).
    { apply NoDup_filter, NoDup_nodup. }
    { intros u U. apply filter_In in U as [U _]. now apply KN. }
    rewrite E in N2. unfold snt in N2. cbn in N2. apply map_eq_nil in N2. split.
    - intros _ u U. destruct (str_in u (import_uids vs)) eqn:X; [now apply str_in_iff|]. exfalso.
      assert (Y : In u (filter (fun u => negb (str_in u (import_uids vs))) known)) by (apply filter_In; now rewrite X).
      rewrite N2 in Y. destruct Y.
    - rewrite N2. reflexivity. }
  split; [split|].
  - intros X. destruct (FWD X) as (evs & CE & F & SY & _). split; [eauto|]. split.
    + intros v V. destruct (F v V) as (u & r & U & D & A). exists u, r. split; [exact U|]. split; [now apply GE|].
      intros (evs' & e & E1 & E2 & E3). assert (evs' = evs) by congruence. subst evs'. apply A, known_in. eauto.
    + intros E u (evs' & e & E1 & E2 & E3). assert (evs' = evs) by congruence. subst evs'. apply UIDS, (SY E), known_in. eauto.
  - intros ((evs & CE) & F & SY). unfold import_cal. rewrite sbind_slift, CE, sbind_slift. set (known := nodup string_dec (map e_uid evs)).
    assert (VIS : forall u, In u known -> visible s c p cr u).
    { intros u U. apply known_in in U as (e & E1 & E2). exists evs, e. auto. }
    rewrite (import_loop_quiet cf c known vs s).
    + rewrite sbind_ok. destruct sync; [|split; reflexivity].
      replace (filter (fun u => negb (str_in u (import_uids vs))) known) with (@nil string); [split; reflexivity|].
      symmetry. destruct (filter (fun u => negb (str_in u (import_uids vs))) known) as [|u l] eqn:FI; [reflexivity|]. exfalso.
      assert (Y : In u (filter (fun u => negb (str_in u (import_uids vs))) known)) by (rewrite FI; now left).
      apply filter_In in Y as [Y1 Y2]. specialize (SY eq_refl u (VIS u Y1)). apply UIDS, str_in_iff in SY. rewrite SY in Y2. discriminate.
    + intros v V. destruct (F v V) as (u & r & U & G & A). exists u, r. split; [exact U|]. split; [now apply GE|]. intros K. now apply A, VIS.
  - intros X. destruct (FWD X) as (evs & _ & _ & _ & Y). exact Y.
Qed.
Print Assumptions C121_silent_iff.

(** So a text that contradicts itself about an event of the calendar never comes
    to rest, however often it is imported. *)
Theorem C121_conflict cf s c vs p cr sync v1 v2 u : reachable cf s -> In v1 vs -> In v2 vs -> v_uid v1 = Some u -> v_uid v2 = Some u ->
  visible s c p cr u ->
  text (v_summary v1) "" <> text (v_summary v2) "" \/ text (v_location v1) "" <> text (v_location v2) ""
  \/ text (v_status v1) "TENTATIVE" <> text (v_status v2) "TENTATIVE" ->
  let m := step cf s (OImport c (Ok (Some vs)) p cr sync) in snt m <> [] \/ srs m <> Ok tt.
Proof.
  intros H I1 I2 U1 U2 VI NE. cbv zeta. pose proof (proj1 (C121_silent_iff cf s c vs p cr sync H)) as IFF. cbv zeta in IFF.
  destruct (step cf s (OImport c (Ok (Some vs)) p cr sync)) as [[s' n] r]. unfold snt, srs in *. cbn [fst snd] in *.
  destruct n as [|x n]; [|left; discriminate]. destruct r as [[]|x|]; try (right; discriminate). exfalso.
  destruct (proj1 IFF (conj eq_refl eq_refl)) as (_ & F & _).
  destruct (F v1 I1) as (u1 & r1 & X1 & G1 & A1). assert (u1 = u) by congruence. subst u1.
  destruct (F v2 I2) as (u2 & r2 & X2 & G2 & A2). assert (u2 = u) by congruence. subst u2. assert (r2 = r1) by congruence. subst r2.
  destruct (A1 VI) as (RT1 & _ & B1). destruct (A2 VI) as (RT2 & _ & B2).
  apply spec_read in RT1 as (sp1 & E1). apply spec_read in RT2 as (sp2 & E2).
  destruct (B1 sp1 E1) as ((_ & _ & T1 & _ & L1 & S1 & _) & _). destruct (B2 sp2 E2) as ((_ & _ & T2 & _ & L2 & S2 & _) & _).
  assert (Q : forall v sp, import_spec (cf_tz cf) (source_knows s) (main_attendee s c) v = Ok sp ->
    s_title sp = text (v_summary v) "" /\ s_location sp = text (v_location v) "" /\ s_status sp = text (v_status v) "TENTATIVE").
  { intros v sp E. unfold import_spec in E. destruct (dtstart_duration (cf_tz cf) v) as [[[a b] d]| |]; try discriminate. cbn [rbind] in E.
    match type of E with rbind ?x _ = _ => destruct x as [o| |]; try discriminate end. cbn [rbind] in E.
    match type of E with rbind ?x _ = _ => destruct x as [q| |]; try discriminate end. cbn [rbind] in E. injection E as <-. repeat split. }
  destruct (Q _ _ E1) as (Q1 & Q2 & Q3). destruct (Q _ _ E2) as (Q4 & Q5 & Q6). destruct NE as [NE|[NE|NE]]; apply NE; congruence.
Qed.
Print Assumptions C121_conflict.

(** a text that gives one event two titles: the second import reports one
    modification and the third two; a text that repeats a component word for word
    is silent the second time *)
Example C121_case :
  let v t := (mkV (Some "n1") (Some (IFloat (p_at 732500 9))) None (Some HOUR) (Some t) None None None None [] [] None None None None)%string in
  let imp s l := step cf0 s (OImport 0 (Ok (Some l)) (None, None) None false) in
  let s1 := sst (imp (run cf0 office) [v "One"; v "Two"]%string) in
  let s2 := sst (imp (run cf0 office) [v "One"; v "One"]%string) in
  snt (imp s1 [v "One"; v "Two"]%string) = [NModified "n1"]%string
  /\ snt (imp (sst (imp s1 [v "One"; v "Two"])) [v "One"; v "Two"])%string = [NModified "n1"; NModified "n1"]%string
  /\ imp s2 [v "One"; v "One"]%string = (s2, [], Ok tt) /\ has_event s2 "n1" = true.
Proof. cbv zeta. split; [vm_compute; reflexivity|]. split; [vm_compute; reflexivity|]. split; vm_compute; reflexivity. Qed.
