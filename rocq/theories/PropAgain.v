(** Importing the same text twice, exactly (C66). *)
From Verif Require Import Base PyDate DateFacts Recurrent CalTime TimeProofs Event Storage ICal System
  QueryProofs EventProofs SpecProofs SystemProofs StoreProofs IdProofs ImportProofs PropEvent PropSystem
  ICalProofs ImportContent ImportTwice PropICal PropImport PropRepeat PropCalendar PropExact PropRound.
From Coq Require Import ZifyBool.
Ltac Zify.zify_post_hook ::= Z.div_mod_to_equations.
Local Opaque ord2ymd year_of month_of day_of ymd2ord days_in_month is_leap.

(** ** specification *)
(** a length that alldayAdjust keeps *)
Definition whole (d : Z) : Prop := d mod DAY = 0 /\ d <> 0.

(** the lines of [v] leave nothing to do once they have been applied: those about
    one person ask for one status, the last of them for REQ-PARTICIPANT, and the
    organizer [o] is not asked for anything but to accept *)
Definition settled_lines (v : vevent) (o : string) : Prop :=
  forall i ps ro, In (i, ps, ro) (v_attendees v) ->
    exists ps' ro', last_line (v_attendees v) i = Some (ps', ro') /\ text ps' "NEEDS-ACTION" = text ps "NEEDS-ACTION"
      /\ text ro' "REQ-PARTICIPANT" = "REQ-PARTICIPANT"%string
      /\ (i = o -> text ps "NEEDS-ACTION" = "ACCEPTED"%string).

(** ** one event *)
Lemma says_times_fun tz v t d a t' d' a' : says_times tz v t d a -> says_times tz v t' d' a' -> t' = t /\ d' = d /\ a' = a.
Proof.
  intros (t0 & E & L & A & X) (t0' & E' & L' & A' & X'). assert (t0' = t0) by congruence. subst t0'.
  apply local_float in L, L'. assert (t' = t) by congruence. subst t'. split; [reflexivity|]. split; [|congruence].
  destruct (v_dtend v) as [t1|].
  - apply local_float in X, X'. assert (Y : Ok (t + d) = Ok (t + d')) by congruence. injection Y as Y. lia.
  - destruct (v_duration v); lia.
Qed.

Lemma fresh_attrs sp e : fresh sp e -> attrs_agree sp e /\ e_organizer e = s_organizer sp.
Proof.
  intros (_ & e0 & n & E). pose proof (set_attrs_twice _ _ _ _ E) as AT. split.
  - rewrite <- AT. unfold attrs_agree, set_attrs. cbn. repeat (split; [reflexivity|]). repeat split; auto using opt_rule_refl.
  - destruct (set_on_object_attrs sp e0) as (_ & _ & _ & _ & _ & _ & _ & _ & _ & _ & _ & _ & _ & O). rewrite E in O. exact O.
Qed.

Lemma fresh_silent tz kn df v sp e o : import_spec tz kn df v = Ok sp -> fresh sp e -> s_organizer sp = Some o ->
  (will_modify sp e = Ok false <-> settled_lines v o).
Proof.
  intros ES F SO. destruct (fresh_attrs sp e F) as [AG O1]. destruct F as (_ & e0 & n & E).
  destruct (set_on_object_parts tz kn df v sp e0 e n ES E) as (AK & AR & P3 & P4). rewrite O1, SO in P3, P4.
  rewrite will_modify_false. rewrite (import_spec_entries _ _ _ _ _ ES). split.
  - intros (_ & (o' & S1 & S2 & S3 & S4) & L) i ps ro H. assert (o' = o) by congruence. subst o'.
    destruct (in_last_line _ _ _ _ H) as ([ps' ro'] & LL). exists ps', ro'.
    destruct (L (Some i) (text ro "REQ-PARTICIPANT") (Some (text ps "NEEDS-ACTION"))) as (i' & X & L1 & L2).
    { apply in_map_iff. exists (i, ps, ro). split; [|exact H]. cbn. now rewrite (AK _ _ _ H). }
    injection X as <-. rewrite P3 in L1. rewrite P4 in L2. unfold said_status, said_role in *. rewrite LL in L1, L2.
    split; [exact LL|]. split; [congruence|]. split; [congruence|]. intros ->. rewrite P3 in S3. unfold said_status in S3. rewrite LL in S3. congruence.
  - intros C.
    assert (LINE : forall i ps ro, In (i, ps, ro) (v_attendees v) -> dget (e_state e) i = Some (text ps "NEEDS-ACTION")
       /\ dget (e_role e) i = Some "REQ-PARTICIPANT"%string).
    { intros i ps ro H. rewrite P3, P4. unfold said_status, said_role. destruct (C i ps ro H) as (ps' & ro' & -> & -> & -> & _). auto. }
    split; [exact AG|]. split.
    + exists o. split; [exact SO|]. split; [congruence|].
      destruct (last_line (v_attendees v) o) as [[ps ro]|] eqn:L.
      * apply last_line_in in L. cbn in L. destruct (LINE _ _ _ L) as [-> ->]. destruct (C _ _ _ L) as (_ & _ & _ & _ & _ & ->); auto.
      * rewrite P3, P4. unfold said_status, said_role. rewrite L, opt_str_eqb_id, String.eqb_refl. auto.
    + intros a ro st H. apply in_map_iff in H as ([[i ps] ro'] & X & H). cbn in X. rewrite (AK _ _ _ H) in X.
      destruct (LINE _ _ _ H) as [L1 L2]. exists i. split; [congruence|]. split; [congruence|exact L2].
Qed.

(** a new event: what the second import makes of it *)
Lemma new_again tz kn df v sp u e : import_spec tz kn df v = Ok sp -> new_event u sp = Ok e ->
  exists d, says_times tz v (s_dtstart sp) d (s_allday sp)
    /\ let e0 := with_time e (e_dtstart e) (Some d) in
       fresh sp e0 /\ (s_allday sp = false -> e_duration e = Some d) /\ (s_allday sp = true -> (e_duration e = Some d <-> whole d))
       /\ set_on_object sp e = (e0, [], Ok tt).
Proof.
  intros ES N. destruct (new_event_eq _ _ _ N) as (e0 & n & E0 & EQ).
  assert (D0 : dicts_ok e0).
  { pose proof (set_on_object_dicts sp (blank u)) as X. rewrite E0 in X. apply X. split; constructor. }
  pose proof (set_attrs_twice _ _ _ _ E0) as AT.
  destruct (import_spec_says _ _ _ _ _ ES) as ((d & SD & ST) & _). exists d. split; [exact ST|]. cbv zeta.
  assert (DU : e_duration e0 = Some d) by (rewrite <- AT; exact SD).
  assert (SS : e_dtstart e0 = s_dtstart sp) by (rewrite <- AT; reflexivity).
  assert (F0 : fresh sp e0) by (split; eauto).
  assert (T : e0 = with_time e (e_dtstart e) (Some d)
     /\ (s_allday sp = false -> e_duration e = Some d) /\ (s_allday sp = true -> (e_duration e = Some d <-> whole d))
     /\ set_attrs sp e = set_attrs sp e0 /\ e_organizer e = e_organizer e0 /\ e_state e = e_state e0 /\ e_role e = e_role e0 /\ e_uid e = e_uid e0).
  { destruct (s_allday sp) eqn:A.
    - destruct (allday_spec e0) as (Q1 & _ & _).
      destruct (allday_rest e0) as (R0 & R1 & R2 & R3 & R4 & R5 & R6 & R7 & R8 & R9 & R10 & R11 & R12 & R13). rewrite <- EQ in *.
      assert (S0 : e_dtstart e = e_dtstart e0).
      { rewrite Q1, SS. destruct ST as (t0 & _ & LT & AD & _). destruct t0; try discriminate AD. cbn in LT. rewrite LT.
        unfold dt_date. rewrite Z.div_mul by (unfold DAY; lia). reflexivity. }
      split; [apply event_ext; cbn; congruence|]. split; [discriminate|]. split.
      + intros _. rewrite EQ. unfold allday_adjust. rewrite DU. cbn. unfold whole, td_days, DAY.
        split; [intros X; assert (X' := f_equal (fun o => match o with Some x => x | None => 0 end) X); cbn in X'; clear X|intros W; f_equal];
        destruct (negb _ || _) eqn:B; lia.
      + split; [|auto]. unfold set_attrs. apply event_ext; cbn; congruence.
    - subst e. split; [apply event_ext; cbn; congruence|]. split; [intros _; exact DU|]. split; [discriminate|]. auto. }
  destruct T as (TE & T1 & T2 & TA & TO & TS & TR & TU). rewrite <- TE. split; [exact F0|]. split; [exact T1|]. split; [exact T2|].
  assert (X : set_on_object sp e = set_on_object sp e0).
  { rewrite !set_on_object_eq. now rewrite TA. }
  rewrite X. eapply fresh_again; [exact ES|exact F0].
Qed.

(** ** the whole import *)
Lemma in_uids vs v u : In v vs -> v_uid v = Some u -> In u (import_uids vs).
Proof. intros Hv V. unfold import_uids. apply in_flat_map. exists v. rewrite V. split; [exact Hv|now left]. Qed.

Lemma uids_in vs u : In u (import_uids vs) -> exists v, In v vs /\ v_uid v = Some u.
Proof.
  unfold import_uids. rewrite in_flat_map. intros (v & Hv & X). exists v. split; [exact Hv|].
  destruct (v_uid v) as [w|]; [|destruct X]. destruct X as [->|[]]. reflexivity.
Qed.

Lemma uids_one vs v w u : NoDup (import_uids vs) -> In v vs -> In w vs -> v_uid v = Some u -> v_uid w = Some u -> w = v.
Proof.
  intros ND. induction vs as [|x vs IH]; [intros []|]. unfold import_uids in ND. cbn [flat_map] in ND.
  assert (ND' : NoDup (import_uids vs)) by (destruct (v_uid x); [now inversion ND|exact ND]).
  assert (NX : forall y, In y vs -> v_uid y = Some u -> v_uid x <> Some u).
  { intros y Hy Y X. rewrite X in ND. inversion ND as [|? ? N _]. apply N. now apply (in_uids vs y). }
  intros [<-|Hv] [<-|Hw] V W; [reflexivity|now elim (NX w Hw W)|now elim (NX v Hv V)|now apply IH].
Qed.

Lemma loop_succeeds_all cf c known vs : forall s, store_inv s -> (forall k, In k known -> has_event s k = true) -> NoDup (import_uids vs) ->
  (forall v, In v vs -> exists u r, v_uid v = Some u /\ dget (sys_store s) u = Some r
     /\ (In u known -> exists sp b, import_spec (cf_tz cf) (source_knows s) (main_attendee s c) v = Ok sp /\ will_modify sp (obj s r) = Ok b
          /\ (b = true -> exists e', set_on_object sp (obj s r) = (e', [], Ok tt)))) ->
  exists us, srs (import_loop cf s c known vs) = Ok us.
Proof.
  induction vs as [|w vs IH]; intros s I KN ND H; [eexists; reflexivity|]. cbn [import_loop].
  assert (ONE : exists u, v_uid w = Some u /\ srs (import_one cf s c known w) = Ok u).
  { destruct (H w (or_introl eq_refl)) as (u & r & V & D & X). exists u. split; [exact V|]. unfold import_one. rewrite V.
    destruct (str_in u known) eqn:K.
    - apply str_in_iff in K. destruct (X K) as (sp & b & IS & W & SO). unfold import_existing, get_event.
      rewrite D, sbind_slift, sbind_slift, IS, sbind_slift, W. destruct b; [|reflexivity]. destruct (SO eq_refl) as (e' & SO'). unfold on_event. rewrite SO'. reflexivity.
    - rewrite has_event_dget, D. reflexivity. }
  destruct ONE as (uw & W & E1).
  pose proof (import_one_frame1 cf s c known w) as F1. pose proof (import_one_tracks cf s c known w I) as (I1 & _).
  set (s1 := sst (import_one cf s c known w)) in *.
  assert (ND' : ~ In uw (import_uids vs) /\ NoDup (import_uids vs)).
  { unfold import_uids in ND. cbn [flat_map] in ND. rewrite W in ND. cbn [app] in ND. now inversion ND. }
  destruct ND' as [N1 N2]. unfold import_uids in F1. cbn [flat_map] in F1. rewrite W in F1. cbn [app] in F1.
  assert (KN1 : forall k, In k known -> has_event s1 k = true) by (intros k Hk; eapply frame_has; [exact F1|auto]).
  destruct (IH s1 I1 KN1 N2) as (us & E2).
  - intros v Hv. destruct (H v (or_intror Hv)) as (u & r & V & D & X).
    assert (NI : ~ In u [uw]) by (intros [<-|[]]; apply N1; now apply (in_uids vs v)).
    destruct (frame_other _ _ s s1 u I F1 NI NI) as [G1 G2]. destruct F1 as (_ & _ & _ & _ & FS & FC). destruct (same_source s s1 c FS FC) as [SK SM].
    exists u, r. rewrite SK, SM, G1, (G2 r D). auto.
  - exists (uw :: us). unfold s1, sst in E2. destruct (import_one cf s c known w) as [[s2 n2] r2]. unfold srs in *. cbn [fst snd] in *. subst r2. cbn [sbind].
    destruct (import_loop cf s2 c known vs) as [[s3 n3] r3]. cbn [snd] in E2. subst r3. reflexivity.
Qed.

(** what the second import finds *)
Definition found (cf : config) (s : system) (c : nat) (n : list notification) (s' : system) (v : vevent) (u : string) (r : nat) (sp : spec) : Prop :=
  import_spec (cf_tz cf) (source_knows s) (main_attendee s c) v = Ok sp
  /\ ((will_modify sp (obj s' r) = Ok false /\ ~ In (NModified u) n /\ ~ In (NCreated u) n /\ has_event s u = true)
      \/ (fresh sp (obj s' r) /\ In (NModified u) n /\ has_event s u = true)
      \/ (new_event u sp = Ok (obj s' r) /\ In (NCreated u) n /\ has_event s u = false)).

Lemma again_finds cf s c vs p cr sync s' n : reachable cf s -> NoDup (import_uids vs) ->
  step cf s (OImport c (Ok (Some vs)) p cr sync) = (s', n, Ok tt) ->
  reachable cf s' /\ sys_source s' = sys_source s /\ sys_cals s' = sys_cals s
  /\ (forall v, In v vs -> exists u r, v_uid v = Some u /\ get_event s' u = Ok r
       /\ (visible s' c p cr u -> exists sp, found cf s c n s' v u r sp))
  /\ forall u, sync = true -> visible s' c p cr u -> In u (import_uids vs).
Proof.
  intros H ND E. pose proof (reachable_store cf s H) as I.
  assert (H' : reachable cf s').
  { destruct H as (h & Hh). exists (h ++ [(OImport c (Ok (Some vs)) p cr sync, n, Ok tt)]). econstructor; [exact Hh|exact E]. }
  pose proof (reachable_store cf s' H') as I'.
  pose proof (C45_import_frame cf s c (Ok (Some vs)) p cr sync H) as FR. cbv zeta in FR. rewrite E in FR. unfold sst in FR. cbn [fst] in FR.
  destruct FR as (FR1 & _ & FR3 & FR4 & SRC & CAL). split; [exact H'|]. split; [exact SRC|]. split; [exact CAL|].
  assert (EV : exists evs, cal_events s c p cr = Ok evs).
  { cbn [step] in E. destruct (import_cases cf s c (Ok (Some vs)) p cr sync) as [(evs & _ & X & _)|(_ & _ & X)]; [eauto|].
    exfalso. apply (X vs eq_refl). now rewrite E. }
  destruct EV as (evs & EV).
  assert (BACK : forall u r, get_event s u = Ok r -> get_event s' u = Ok r -> obj s' r = obj s r -> visible s' c p cr u -> visible s c p cr u).
  { intros u r G G' OB. unfold get_event in G, G'. destruct (dget (sys_store s) u) as [a|] eqn:D; [|discriminate]. destruct (dget (sys_store s') u) as [b|] eqn:D'; [|discriminate].
    assert (a = r) by congruence. assert (b = r) by congruence. subst. eapply visible_same; eauto. }
  split.
  - intros v Hv. destruct (C85_import_exact cf s c vs p cr sync s' n H ND E) as (ns & del & EN & FA & _ & _).
    destruct (forall2_in _ _ _ FA) as [FA1 _]. destruct (FA1 v Hv) as (nv & Hnv & (u & r & V & G & O)). exists u, r. split; [exact V|]. split; [exact G|].
    intros VIS'. assert (INn : forall x, nv = [x] -> In x n).
    { intros x ->. rewrite EN. apply in_or_app. left. apply in_concat. exists [x]. split; [exact Hnv|now left]. }
    destruct O as [(VIS & G0 & sp & IS & O)|[(NEW & sp & IS & NE & NV)|(NV & G0 & OB & _)]].
    + exists sp. split; [exact IS|].
      assert (HE : has_event s u = true) by (unfold has_event; now rewrite G0).
      destruct O as [(W & OB & _)|(W & (m & SO) & NV)]; [left|right; left].
      * rewrite OB. split; [exact W|]. split; [|split; [|exact HE]].
        -- intros X. apply (C85_modified_iff cf s c vs p cr sync s' n v u r sp H ND E Hv V VIS G0 IS) in X. congruence.
        -- intros X. pose proof (C45_import_notices cf s c (Ok (Some vs)) p cr sync (NCreated u) H) as Q. rewrite E in Q. destruct (Q X) as [_ Q']. contradiction.
      * split; [|split; [now apply INn|exact HE]]. split; [now apply (reachable_dicts_ok cf s')|]. eauto.
    + exists sp. split; [exact IS|]. right; right. split; [exact NE|]. split; [now apply INn|exact NEW].
    + elim NV. now apply (BACK u r).
  - intros u -> VIS'. destruct (in_dec string_dec u (import_uids vs)) as [Y|N]; [exact Y|].
    assert (G : exists k, get_event s' u = Ok k).
    { destruct VIS' as (evs' & e & V1 & V2 & V3). destruct (cal_events_known s' c p cr evs' e I' V1 V2) as (k & D & _). exists k. unfold get_event. now rewrite <- V3, D. }
    destruct G as (k & G). destruct (has_event s u) eqn:HE.
    + assert (G0 : exists k0, get_event s u = Ok k0).
      { unfold has_event in HE. destruct (get_event s u); [eauto|discriminate..]. }
      destruct G0 as (k0 & G0). assert (k = k0) by (eapply FR3; eauto). subst k0.
      pose proof (C85_unnamed cf s c (Ok (Some vs)) p cr true u k H G0 N) as X. cbv zeta in X. rewrite E in X. unfold sst in X. cbn [fst] in X. destruct X as [OB _].
      assert (VIS : visible s c p cr u) by now apply (BACK u k).
      pose proof (C46_sync_exact cf s c vs p cr H) as Q. rewrite E in Q. cbv zeta in Q. destruct (Q eq_refl) as [Q1 _].
      apply (Q1 u VIS). unfold sst, has_event. cbn [fst]. now rewrite G.
    + destruct (FR4 u k G HE) as [X _]. exact X.
Qed.

(** ** specification of the second import *)
(** the event [u] is one that the first import created, from a component that
    says a date for its start and [d] for its length, and that is shown *)
Definition made (cf : config) (s : system) (c : nat) (p : period) (cr : option criteria) (vs : list vevent) (s' : system) (u : string) (d : Z) : Prop :=
  exists v t, In v vs /\ v_uid v = Some u /\ has_event s u = false /\ visible s' c p cr u /\ says_times (cf_tz cf) v t d true.

(** The second import succeeds and leaves the same objects under the same ids;
    the only change is that new all-day events get the length the text says.
    It announces those, and every event the first one announced whose lines are
    not settled. *)
Theorem C66_again_exact cf s c vs p cr sync s' n evs' : reachable cf s -> NoDup (import_uids vs) ->
  step cf s (OImport c (Ok (Some vs)) p cr sync) = (s', n, Ok tt) ->
  (forall v, In v vs -> exists o, says_organizer (source_knows s) (main_attendee s c) v (Some o)) ->
  cal_events s' c p cr = Ok evs' ->
  exists s'' again, step cf s' (OImport c (Ok (Some vs)) p cr sync) = (s'', map NModified again, Ok tt)
  /\ (forall u, get_event s'' u = get_event s' u)
  /\ (forall u r, get_event s' u = Ok r ->
        (forall d, made cf s c p cr vs s' u d -> obj s'' r = with_time (obj s' r) (e_dtstart (obj s' r)) (Some d))
        /\ ((forall d, ~ made cf s c p cr vs s' u d) -> obj s'' r = obj s' r)
        /\ (obj s'' r = obj s' r <-> forall d, made cf s c p cr vs s' u d -> whole d))
  /\ NoDup again
  /\ (forall u, In u again <-> exists v o, In v vs /\ v_uid v = Some u /\ visible s' c p cr u
        /\ says_organizer (source_knows s) (main_attendee s c) v (Some o) /\ (In (NModified u) n \/ In (NCreated u) n)
        /\ (~ settled_lines v o \/ exists d, made cf s c p cr vs s' u d /\ ~ whole d)).
Proof.
  intros H ND E ORG EV. destruct (again_finds cf s c vs p cr sync s' n H ND E) as (H' & SRC & CAL & FIND & SYNC).
  pose proof (reachable_store cf s' H') as I'. destruct (same_source s s' c SRC CAL) as [SK SM].
  (* what will_modify and setOnObject do to each *)
  assert (EACH : forall v u r sp o, In v vs -> v_uid v = Some u -> visible s' c p cr u -> found cf s c n s' v u r sp ->
     says_organizer (source_knows s) (main_attendee s c) v (Some o) ->
     exists b, will_modify sp (obj s' r) = Ok b
       /\ (b = true <-> (In (NModified u) n \/ In (NCreated u) n) /\ (~ settled_lines v o \/ exists d, made cf s c p cr vs s' u d /\ ~ whole d))
       /\ exists e', (b = true -> set_on_object sp (obj s' r) = (e', [], Ok tt)) /\ (b = false -> e' = obj s' r)
          /\ (forall d, made cf s c p cr vs s' u d -> e' = with_time (obj s' r) (e_dtstart (obj s' r)) (Some d))
          /\ ((forall d, ~ made cf s c p cr vs s' u d) -> e' = obj s' r)
          /\ (e' = obj s' r <-> forall d, made cf s c p cr vs s' u d -> whole d)).
  { intros v u r sp o Hv V VIS (IS & O) SO.
    assert (SORG : s_organizer sp = Some o).
    { destruct (import_spec_says _ _ _ _ _ IS) as (_ & SO' & _). unfold says_organizer in SO, SO'.
      destruct (v_organizer v) as [x|]; [destruct (source_knows s x)|]; congruence. }
    assert (TOTAL : forall e, fresh sp e -> forall e1, exists b, will_modify sp e1 = Ok b).
    { intros e (_ & e0 & m & X) e1. apply will_modify_total; [congruence|]. rewrite (import_spec_entries _ _ _ _ _ IS).
      destruct (set_on_object_parts _ _ _ v sp e0 e m IS X) as (AK & _). intros a ro st Y. apply in_map_iff in Y as ([[i ps] ro'] & Y & Hi).
      cbn in Y. rewrite (AK _ _ _ Hi) in Y. congruence. }
    destruct O as [(W & N1 & N2 & HE)|[(F & N & HE)|(NE & N & HE)]].
    - assert (NM : forall d, ~ made cf s c p cr vs s' u d) by (intros d (v' & t & _ & _ & X & _); congruence).
      exists false. split; [exact W|]. split; [split; [discriminate|tauto]|]. exists (obj s' r). split; [discriminate|]. split; [reflexivity|].
      split; [intros d X; now elim (NM d)|]. split; [reflexivity|]. split; [intros _ d X; now elim (NM d)|reflexivity].
    - assert (NM : forall d, ~ made cf s c p cr vs s' u d) by (intros d (v' & t & _ & _ & X & _); congruence).
      destruct (TOTAL _ F (obj s' r)) as (b & W). pose proof (fresh_silent _ _ _ v sp _ o IS F SORG) as FS. exists b. split; [exact W|]. split.
      + destruct b; split; intros X; try discriminate; try reflexivity.
        * split; [now left|]. left. intros Y. apply FS in Y. congruence.
        * destruct X as [_ [X|(d & X & _)]]; [|now elim (NM d)]. elim X. now apply FS.
      + exists (obj s' r). split; [intros _; eapply fresh_again; eauto|]. split; [reflexivity|].
        split; [intros d X; now elim (NM d)|]. split; [reflexivity|]. split; [intros _ d X; now elim (NM d)|reflexivity].
    - destruct (new_again _ _ _ v sp u (obj s' r) IS NE) as (d & ST & X). cbv zeta in X. set (e0 := with_time (obj s' r) (e_dtstart (obj s' r)) (Some d)) in *.
      destruct X as (F & A1 & A2 & SET). destruct (TOTAL _ F (obj s' r)) as (b & W). pose proof (fresh_silent _ _ _ v sp _ o IS F SORG) as FS.
      assert (SAME : e_duration (obj s' r) = Some d <-> e0 = obj s' r).
      { split; [intros X; unfold e0; apply event_ext; cbn; congruence|]. intros X. rewrite <- X. reflexivity. }
      assert (WF : will_modify sp (obj s' r) = Ok false -> e0 = obj s' r).
      { intros X. apply will_modify_false in X as ((_ & X & _) & _). apply SAME. destruct (fresh_attrs _ _ F) as [(_ & Y & _) _].
        rewrite X, <- Y. reflexivity. }
      assert (MADE : forall d', made cf s c p cr vs s' u d' <-> s_allday sp = true /\ d' = d).
      { intros d'. split.
        - intros (v' & t & Hv' & V' & _ & _ & ST'). assert (v' = v) by (eapply uids_one; eauto). subst v'.
          destruct (says_times_fun _ _ _ _ _ _ _ _ ST ST') as (_ & Y & Z). auto.
        - intros [AD ->]. exists v, (s_dtstart sp). rewrite <- AD. auto. }
      assert (KEPT : e0 = obj s' r <-> forall d', made cf s c p cr vs s' u d' -> whole d').
      { rewrite <- SAME. destruct (s_allday sp) eqn:AD.
        - rewrite (A2 eq_refl). split; [intros X d' M; apply MADE in M as [_ ->]; exact X|]. intros X. apply X, MADE. auto.
        - split; [|intros _; now apply A1]. intros _ d' M. apply MADE in M as [M _]. discriminate. }
      exists b. split; [exact W|]. split.
      + assert (B : b = false <-> e0 = obj s' r /\ settled_lines v o).
        { split.
          - intros ->. specialize (WF W). split; [exact WF|]. apply FS. now rewrite WF.
          - intros [X Y]. apply FS in Y. rewrite X in Y. congruence. }
        destruct b; split; intros X; try discriminate; try reflexivity.
        * split; [now right|]. destruct (s_allday sp) eqn:AD.
          -- assert (DW : whole d \/ ~ whole d) by (unfold whole; lia). destruct DW as [DW|DW]; [left|right; exists d; split; [now apply MADE|exact DW]].
             intros Y. assert (Q : true = false); [|discriminate]. apply B. split; [|exact Y]. apply KEPT. intros d' M. apply MADE in M as [_ ->]. exact DW.
          -- left. intros Y. assert (Q : true = false); [|discriminate]. apply B. split; [|exact Y]. apply KEPT. intros d' M. apply MADE in M as [M _]. discriminate.
        * destruct B as [B _]. destruct (B eq_refl) as [B1 B2]. destruct X as [_ [X|(d' & M & X)]]; [contradiction|]. elim X. now apply KEPT.
      + exists e0. split; [intros _; exact SET|]. split; [intros ->; now apply WF|]. split; [intros d' M; apply MADE in M as [_ ->]; reflexivity|].
        split; [|exact KEPT]. intros NM. apply KEPT. intros d' M. now elim (NM d'). }
  set (known := nodup string_dec (map e_uid evs')).
  assert (VIS : forall u, visible s' c p cr u <-> In u known).
  { intros u. unfold known. rewrite known_in. split.
    - intros (evs & e & X & Y & Z). assert (evs = evs') by congruence. subst. eauto.
    - intros (e & Y & Z). exists evs', e. auto. }
  (* it succeeds *)
  assert (OK : exists us, srs (import_loop cf s' c known vs) = Ok us).
  { apply loop_succeeds_all; [exact I'|apply (known_stored s' c p cr evs' I' EV)|exact ND|]. intros v Hv.
    destruct (FIND v Hv) as (u & r & V & G & X). exists u, r. split; [exact V|]. split.
    { unfold get_event in G. destruct (dget (sys_store s') u); [congruence|discriminate]. }
    intros K. apply VIS in K. destruct (X K) as (sp & FO). destruct (ORG v Hv) as (o & SO). destruct (EACH v u r sp o Hv V K FO SO) as (b & W & _ & e' & Y & _).
    exists sp, b. rewrite SK, SM. split; [apply FO|]. split; [exact W|]. eauto. }
  destruct OK as (us & OK). pose proof (loop_then_import cf s' c vs p cr sync evs' us I' EV OK) as DONE.
  destruct (import_cal cf s' c (Ok (Some vs)) p cr sync) as [[s'' n''] x] eqn:ST. unfold srs in DONE. cbn [snd] in DONE. subst x.
  destruct (C85_import_exact cf s' c vs p cr sync s'' n'' H' ND ST) as (ns & del & EN & FA & _ & DEL).
  assert (D0 : del = []).
  { destruct del as [|u l]; [reflexivity|]. exfalso. destruct (proj1 (DEL u) (or_introl eq_refl)) as (X & Y & Z). apply Z. now apply SYNC. }
  subst del. cbn [map] in EN. rewrite app_nil_r in EN. subst n''. destruct (forall2_in _ _ _ FA) as [FA1 FA2].
  pose proof (C45_import_frame cf s' c (Ok (Some vs)) p cr sync H') as FR. cbv zeta in FR. cbn [step] in FR. rewrite ST in FR. unfold sst in FR. cbn [fst] in FR.
  destruct FR as (FR1 & _ & FR3 & FR4 & _ & _).
  set (facts := fun u r => (forall d, made cf s c p cr vs s' u d -> obj s'' r = with_time (obj s' r) (e_dtstart (obj s' r)) (Some d))
        /\ ((forall d, ~ made cf s c p cr vs s' u d) -> obj s'' r = obj s' r)
        /\ (obj s'' r = obj s' r <-> forall d, made cf s c p cr vs s' u d -> whole d)).
  set (cond := fun v u => exists o, visible s' c p cr u /\ says_organizer (source_knows s) (main_attendee s c) v (Some o)
        /\ (In (NModified u) n \/ In (NCreated u) n) /\ (~ settled_lines v o \/ exists d, made cf s c p cr vs s' u d /\ ~ whole d)).
  assert (PLAIN : forall u r, (forall d, ~ made cf s c p cr vs s' u d) -> obj s'' r = obj s' r -> facts u r).
  { intros u r NM OB. split; [intros d X; now elim (NM d)|]. split; [auto|]. split; [intros _ d X; now elim (NM d)|auto]. }
  assert (STAY : forall v nv, In v vs -> component cf s' c p cr s'' v nv -> exists u r, v_uid v = Some u /\ get_event s' u = Ok r /\ get_event s'' u = Ok r
     /\ facts u r /\ ((nv = [NModified u] /\ cond v u) \/ (nv = [] /\ ~ cond v u))).
  { intros v nv Hv (u & r & V & G2 & O). destruct (FIND v Hv) as (u' & r' & V' & G1 & X). assert (u' = u) by congruence. subst u'.
    exists u, r. split; [exact V|]. destruct O as [(VI & G & sp & IS & O)|[(NEW & _)|(NV & G & OB & NN)]].
    - split; [exact G|]. split; [exact G2|]. assert (r' = r) by congruence. subst r'. destruct (X VI) as (sp' & FO).
      rewrite SK, SM in IS. assert (sp' = sp) by (destruct FO as (IS' & _); congruence). subst sp'.
      destruct (ORG v Hv) as (o & SO). destruct (EACH v u r sp o Hv V VI FO SO) as (b & W & BC & e' & B1 & B2 & FACTS).
      assert (CO : cond v u <-> b = true).
      { unfold cond. rewrite BC. split.
        - intros (o' & _ & SO' & Y). assert (o' = o).
          { unfold says_organizer in SO, SO'. destruct (v_organizer v) as [y|]; [destruct (source_knows s y)|]; congruence. }
          now subst o'.
        - intros Y. exists o. auto. }
      assert (OE : obj s'' r = e').
      { destruct O as [(W' & OB & _)|(W' & (m & SOO) & _)].
        - assert (b = false) by congruence. rewrite B2; assumption.
        - assert (b = true) by congruence. rewrite B1 in SOO by assumption. congruence. }
      split; [unfold facts; rewrite OE; exact FACTS|].
      destruct O as [(W' & _ & ->)|(W' & _ & ->)]; [right|left].
      + split; [reflexivity|]. rewrite CO. congruence.
      + split; [reflexivity|]. rewrite CO. congruence.
    - exfalso. unfold has_event in NEW. rewrite G1 in NEW. discriminate.
    - split; [exact G|]. split; [exact G2|]. split.
      + apply PLAIN; [|exact OB]. intros d (v' & t & _ & _ & _ & VI & _). contradiction.
      + right. split; [exact NN|]. intros (o & VI & _). contradiction. }
  assert (AG : exists again, List.concat ns = map NModified again /\ NoDup again
     /\ forall u, In u again <-> exists v, In v vs /\ v_uid v = Some u /\ cond v u).
  { clear - ND FA STAY. clearbody facts cond. revert STAY ND. induction FA as [|v nv l ns O FA IH]; intros STAY ND.
    { exists []. split; [reflexivity|]. split; [constructor|]. intros u. split; [intros []|intros (v & [] & _)]. }
    destruct (STAY v nv (or_introl eq_refl) O) as (u & r & V & _ & _ & _ & X). unfold import_uids in ND. cbn [flat_map] in ND. rewrite V in ND. cbn [Datatypes.app] in ND.
    inversion ND as [|? ? NI ND']. subst. destruct (IH (fun v nv Hv => STAY v nv (or_intror Hv)) ND') as (again & A1 & A2 & A3).
    assert (NA : ~ In u again). { intros Y. apply A3 in Y as (w & Hw & W & _). apply NI. now apply (in_uids l w). }
    destruct X as [(-> & C)|(-> & C)].
    - exists (u :: again). split; [cbn; now rewrite A1|]. split; [now constructor|]. intros w. cbn [In]. rewrite A3. split.
      + intros [<-|(y & Hy & Y)]; [exists v; split; [now left|auto]|exists y; split; [now right|exact Y]].
      + intros (y & [<-|Hy] & Y & CY); [left; congruence|right; eauto].
    - exists again. split; [exact A1|]. split; [exact A2|]. intros w. rewrite A3. split.
      + intros (y & Hy & Y). exists y. split; [now right|exact Y].
      + intros (y & [<-|Hy] & Y & CY); [|eauto]. exfalso. apply C. assert (w = u) by congruence. now subst w. }
  destruct AG as (again & A1 & A2 & A3). exists s'', again. split; [rewrite <- A1; exact ST|].
  assert (TEXT : forall u, In u (import_uids vs) -> exists r, get_event s' u = Ok r /\ get_event s'' u = Ok r /\ facts u r).
  { intros u Hu. apply uids_in in Hu as (v & Hv & V). destruct (FA1 v Hv) as (nv & _ & O).
    destruct (STAY v nv Hv O) as (u' & r & V' & G & G2 & FC & _). assert (u' = u) by congruence. subst u'. eauto. }
  assert (REST : forall u r, ~ In u (import_uids vs) -> get_event s' u = Ok r -> get_event s'' u = Ok r /\ obj s'' r = obj s' r).
  { intros u r NI G. pose proof (C85_unnamed cf s' c (Ok (Some vs)) p cr sync u r H' G NI) as X. cbv zeta in X. cbn [step] in X. rewrite ST in X.
    unfold sst in X. cbn [fst] in X. destruct X as [OB X]. split; [|exact OB]. destruct X as [X|(SY & X)]; [exact X|].
    apply FR1; [exact G|]. intros VI. apply NI. now apply SYNC. }
  split; [|split; [|split; [exact A2|]]].
  - intros u. destruct (in_dec string_dec u (import_uids vs)) as [Hu|NI].
    + destruct (TEXT u Hu) as (r & -> & -> & _). reflexivity.
    + destruct (get_event s' u) as [r|x|] eqn:G.
      * now apply REST.
      * destruct (get_event s'' u) as [r|y|] eqn:G2.
        -- exfalso. destruct (FR4 u r G2) as [X _]; [unfold has_event; now rewrite G|]. contradiction.
        -- unfold get_event in *. destruct (dget (sys_store s') u); [discriminate|]. destruct (dget (sys_store s'') u); [discriminate|]. congruence.
        -- unfold get_event in G2. destruct (dget (sys_store s'') u); discriminate.
      * unfold get_event in G. destruct (dget (sys_store s') u); discriminate.
  - intros u r G. destruct (in_dec string_dec u (import_uids vs)) as [Hu|NI].
    + destruct (TEXT u Hu) as (r' & G' & _ & FC). assert (r' = r) by congruence. subst r'. exact FC.
    + destruct (REST u r NI G) as [_ OB]. apply PLAIN; [|exact OB]. intros d (v & t & Hv & V & _). apply NI. now apply (in_uids vs v).
  - intros u. rewrite A3. unfold cond. split.
    + intros (v & Hv & V & o & C1 & C2 & C3). exists v, o. auto.
    + intros (v & o & Hv & V & C1 & C2 & C3). exists v. split; [exact Hv|]. split; [exact V|]. exists o. auto.
Qed.
Print Assumptions C66_again_exact.

(** Nothing changes at all, whatever the outcome, if the lengths the text says for
    new all-day events that are shown are whole days. *)
Theorem C66_again_unchanged cf s c vs p cr sync s' n : reachable cf s -> NoDup (import_uids vs) ->
  step cf s (OImport c (Ok (Some vs)) p cr sync) = (s', n, Ok tt) ->
  (forall u d, made cf s c p cr vs s' u d -> whole d) ->
  sst (step cf s' (OImport c (Ok (Some vs)) p cr sync)) = s'.
Proof.
  intros H ND E WH. destruct (again_finds cf s c vs p cr sync s' n H ND E) as (H' & SRC & CAL & FIND & SYNC).
  pose proof (reachable_store cf s' H') as I'. destruct (same_source s s' c SRC CAL) as [SK SM]. cbn [step].
  destruct (import_cases cf s' c (Ok (Some vs)) p cr sync) as [(evs & vs' & E1 & E2 & EQ)|(EQ & _ & _)]; [|exact EQ].
  assert (vs' = vs) by congruence. subst vs'. set (known := nodup string_dec (map e_uid evs)) in *.
  assert (VIS : forall u, In u known -> visible s' c p cr u).
  { intros u Hu. apply known_in in Hu as (e & Y & Z). exists evs, e. auto. }
  assert (KN : forall k, In k known -> has_event s' k = true) by (apply (known_stored s' c p cr evs I' E1)).
  assert (SET : forall v, In v vs -> settled cf s' c known v).
  { intros v Hv. destruct (FIND v Hv) as (u & r & V & G & X). exists u, r. split; [exact V|]. split.
    { unfold get_event in G. destruct (dget (sys_store s') u); [congruence|discriminate]. }
    intros K. destruct (X (VIS u K)) as (sp & IS & O). exists sp. rewrite SK, SM. split; [exact IS|].
    destruct O as [(W & _)|[(F & _)|(NE & _ & HE)]]; [now left|now right|right].
    destruct (new_again _ _ _ v sp u (obj s' r) IS NE) as (d & ST & Y). cbv zeta in Y. destruct Y as (F & A1 & A2 & _).
    assert (DU : e_duration (obj s' r) = Some d).
    { destruct (s_allday sp) eqn:AD; [|now apply A1]. apply A2; [reflexivity|]. apply (WH u d). exists v, (s_dtstart sp). do 4 (split; [auto|]). exact ST. }
    assert (Q : with_time (obj s' r) (e_dtstart (obj s' r)) (Some d) = obj s' r) by (apply event_ext; cbn; congruence).
    rewrite Q in F. exact F. }
  rewrite EQ. pose proof (import_loop_settled cf c known vs s' SET) as LS.
  pose proof (fun us => import_loop_ok cf c known vs s' us KN) as OKL.
  destruct (import_loop cf s' c known vs) as [[s2 n2] r2]. unfold sst, srs in LS, OKL. cbn [fst snd] in LS, OKL. subst s2.
  destruct r2 as [us'|x|]; [|reflexivity..]. destruct (OKL us' eq_refl) as (-> & _). cbn [sbind].
  destruct sync; [|reflexivity].
  assert (NIL : filter (fun u => negb (str_in u (import_uids vs))) known = []).
  { destruct (filter _ known) as [|u l] eqn:X; [reflexivity|]. exfalso. assert (Hu : In u (u :: l)) by now left. rewrite <- X in Hu.
    apply filter_In in Hu as [Hu N]. specialize (SYNC u eq_refl (VIS u Hu)). apply str_in_iff in SYNC. rewrite SYNC in N. discriminate. }
  rewrite NIL. reflexivity.
Qed.
Print Assumptions C66_again_unchanged.

(** The full claim for a text whose events all have an organizer, and exactly when
    it holds. *)
Theorem C66_again_iff cf s c vs p cr sync s' n evs' : reachable cf s -> NoDup (import_uids vs) ->
  step cf s (OImport c (Ok (Some vs)) p cr sync) = (s', n, Ok tt) ->
  (forall v, In v vs -> exists o, says_organizer (source_knows s) (main_attendee s c) v (Some o)) ->
  cal_events s' c p cr = Ok evs' ->
  ((exists n', step cf s' (OImport c (Ok (Some vs)) p cr sync) = (s', n', Ok tt))
   <-> forall u d, made cf s c p cr vs s' u d -> whole d)
  /\ (step cf s' (OImport c (Ok (Some vs)) p cr sync) = (s', [], Ok tt)
   <-> (forall u d, made cf s c p cr vs s' u d -> whole d)
       /\ forall v u o, In v vs -> v_uid v = Some u -> visible s' c p cr u -> In (NModified u) n \/ In (NCreated u) n ->
            says_organizer (source_knows s) (main_attendee s c) v (Some o) -> settled_lines v o).
Proof.
  intros H ND E ORG EV. destruct (C66_again_exact cf s c vs p cr sync s' n evs' H ND E ORG EV) as (s'' & again & ST & GE & OB & _ & AG).
  pose proof (C66_again_unchanged cf s c vs p cr sync s' n H ND E) as UN. rewrite ST in *. unfold sst in UN. cbn [fst] in UN.
  assert (A : s'' = s' <-> forall u d, made cf s c p cr vs s' u d -> whole d).
  { split; [|exact UN]. intros -> u d M. assert (G : exists r, get_event s' u = Ok r).
    { destruct M as (v & t & Hv & V & _). destruct (again_finds cf s c vs p cr sync s' n H ND E) as (_ & _ & _ & FIND & _).
      destruct (FIND v Hv) as (u' & r & V' & G & _). exists r. congruence. }
    destruct G as (r & G). destruct (OB u r G) as (_ & _ & X). apply X; [reflexivity|exact M]. }
  split.
  - rewrite <- A. split; [intros (n' & X); congruence|]. intros ->. eauto.
  - assert (B : s'' = s' -> (again = [] <-> forall v u o, In v vs -> v_uid v = Some u -> visible s' c p cr u -> In (NModified u) n \/ In (NCreated u) n ->
            says_organizer (source_knows s) (main_attendee s c) v (Some o) -> settled_lines v o)).
    { intros S. pose proof (proj1 A S) as W. split.
      - intros Q v u o Hv V VI AN SO. destruct (again_finds cf s c vs p cr sync s' n H ND E) as (H' & SRC & CAL & FIND & _).
        destruct (FIND v Hv) as (u' & r & V' & G & X). assert (u' = u) by congruence. subst u'. destruct (X VI) as (sp & IS & O).
        assert (SORG : s_organizer sp = Some o).
        { destruct (import_spec_says _ _ _ _ _ IS) as (_ & SO' & _). unfold says_organizer in SO, SO'.
          destruct (v_organizer v) as [y|]; [destruct (source_knows s y)|]; congruence. }
        assert (F : fresh sp (obj s' r)).
        { destruct O as [(_ & N1 & N2 & _)|[(F & _)|(NE & _ & HE)]]; [tauto|exact F|].
          destruct (new_again _ _ _ v sp u (obj s' r) IS NE) as (d & ST' & Y). cbv zeta in Y. destruct Y as (F & A1 & A2 & _).
          assert (DU : e_duration (obj s' r) = Some d).
          { destruct (s_allday sp) eqn:AD; [|now apply A1]. apply A2; [reflexivity|]. apply (W u d). exists v, (s_dtstart sp). auto. }
          assert (Z : with_time (obj s' r) (e_dtstart (obj s' r)) (Some d) = obj s' r) by (apply event_ext; cbn; congruence).
          now rewrite Z in F. }
        destruct (will_modify sp (obj s' r)) as [[|]|x|] eqn:WM; [|now apply (fresh_silent _ _ _ v sp (obj s' r) o IS F SORG)|..]; exfalso.
        + destruct (C85_import_exact cf s' c vs p cr sync s'' (map NModified again) H' ND ST) as (ns & del & EN & FA & _).
          rewrite Q in EN. destruct (forall2_in _ _ _ FA) as [FA1 _]. destruct (FA1 v Hv) as (nv & Hnv & (u2 & r2 & V2 & G2 & O2)).
          assert (u2 = u) by congruence. subst u2. destruct (same_source s s' c SRC CAL) as [SK SM].
          destruct O2 as [(_ & G3 & sp2 & IS2 & O2)|[(N & _)|(N & _)]]; [|unfold has_event in N; rewrite G in N; discriminate|contradiction].
          rewrite SK, SM in IS2. assert (sp2 = sp) by congruence. subst sp2. assert (r2 = r) by congruence. subst r2.
          destruct O2 as [(W2 & _)|(_ & _ & ->)]; [congruence|].
          assert (Y : In (NModified u) (List.concat ns ++ map NDeleted del)).
          { apply in_or_app. left. apply in_concat. exists [NModified u]. split; [exact Hnv|now left]. }
          rewrite <- EN in Y. destruct Y.
        + destruct (proj1 (C49_raises_iff sp (obj s' r) x) WM) as (_ & _ & [Y|(_ & l1 & ro & st & l2 & Z & _)]); [congruence|].
          rewrite (import_spec_entries _ _ _ _ _ IS) in Z. destruct F as (_ & e0 & m & F).
          destruct (set_on_object_parts _ _ _ v sp e0 (obj s' r) m IS F) as (AK & _).
          assert (Y : In (None, ro, st) (map (line_entry (source_knows s)) (v_attendees v))) by (rewrite Z; apply in_or_app; right; now left).
          apply in_map_iff in Y as ([[i ps] ro'] & Y & Hi). cbn in Y. rewrite (AK _ _ _ Hi) in Y. discriminate.
        + revert WM. unfold will_modify. destruct (attrs_differ sp (obj s' r)); [discriminate|]. rewrite SORG. destruct (negb _); [discriminate|].
          unfold get_status, get_role. cbn [attendee_id rbind]. destruct (negb _); [discriminate|]. destruct (negb _); [discriminate|].
          rewrite (import_spec_entries _ _ _ _ _ IS). generalize (v_attendees v). intros l. induction l as [|[[i ps] ro] l IH]; [discriminate|].
          cbn. unfold get_status, get_role. cbn. destruct (source_knows s i); cbn; [|discriminate]. destruct (negb _); [discriminate|]. destruct (negb _); [discriminate|exact IH].
      - intros X. destruct again as [|u l]; [reflexivity|]. exfalso. destruct (proj1 (AG u) (or_introl eq_refl)) as (v & o & Hv & V & VI & SO & AN & [Y|(d & M & Y)]).
        + apply Y. eapply X; eauto.
        + apply Y. eapply W; eauto. }
    split.
    + intros X. assert (S : s'' = s') by congruence. assert (Q : again = []) by (destruct again; [reflexivity|cbn in X; discriminate]).
      split; [now apply A|]. now apply (B S).
    + intros [X Y]. apply A in X. pose proof (proj2 (B X) Y) as Q. rewrite Q, X. reflexivity.
Qed.
Print Assumptions C66_again_iff.

(** a text with a change, a new all-day event of two days, one without an end, and
    one whose lines about bob disagree *)
Definition x_twice : list vevent :=
  x_again ++ [mkV (Some "n2") (Some (IDate 732500)) None None (Some "Open") None None None None [] [] None None None None;
   mkV (Some "n3") (Some (IFloat (p_at 732500 9))) None None (Some "Talk") None None None None
     [("bob", Some "DECLINED", None); ("bob", Some "ACCEPTED", None)] [] None None None None]%string.

Example C66_exact_case :
  let m := step cf0 (run cf0 office) (OImport 0 (Ok (Some x_twice)) (None, None) None true) in
  NoDup (import_uids x_twice) /\ srs m = Ok tt
  /\ (forall v, In v x_twice -> exists o, says_organizer (source_knows (run cf0 office)) (main_attendee (run cf0 office) 0) v (Some o))
  /\ (exists evs, cal_events (sst m) 0 (None, None) None = Ok evs /\ map e_uid evs = ["a1"; "n1"; "n2"; "n3"]%string)
  /\ snt m = [NModified "a1"; NCreated "n1"; NCreated "n2"; NCreated "n3"; NDeleted "a2"]%string
  /\ let m' := step cf0 (sst m) (OImport 0 (Ok (Some x_twice)) (None, None) None true) in
     srs m' = Ok tt /\ snt m' = [NModified "n2"; NModified "n3"]%string
     /\ map (fun u => match get_event (sst m') u with Ok r => e_duration (obj (sst m') r) | _ => None end) ["a1"; "n1"; "n2"; "n3"]%string
        = [Some HOUR; Some (2 * DAY); Some 0; Some 0].
Proof.
  cbv zeta. split; [cbn; repeat (constructor; [cbn; intuition discriminate|]); constructor|]. split; [vm_compute; reflexivity|]. split.
  - intros v Hv. cbn in Hv. decompose [or] Hv; subst; try contradiction; cbn; eexists; vm_compute; reflexivity.
  - split; [eexists; split; vm_compute; reflexivity|]. vm_compute. auto.
Qed.

(** Refuted as well when a text says the same id twice: of a new event the first
    component counts in the first import and the last one in the second. *)
Theorem C66_repeated_refuted : exists s c v1 v2 s', reachable cf0 s
  /\ v_uid v1 = v_uid v2 /\ v_dtstart v1 = v_dtstart v2
  /\ (exists n, step cf0 s (OImport c (Ok (Some [v1; v2])) (None, None) None false) = (s', n, Ok tt))
  /\ exists r, get_event s' "n1" = Ok r /\ e_title (obj s' r) = text (v_summary v1) ""
  /\ let m := step cf0 s' (OImport c (Ok (Some [v1; v2])) (None, None) None false) in
     srs m = Ok tt /\ get_event (sst m) "n1" = Ok r /\ e_title (obj (sst m) r) = text (v_summary v2) ""
     /\ text (v_summary v1) "" <> text (v_summary v2) ""%string.
Proof.
  exists (run cf0 office), O,
    (mkV (Some "n1") (Some (IFloat (p_at 732500 9))) None (Some HOUR) (Some "One") None None None None [] [] None None None None)%string,
    (mkV (Some "n1") (Some (IFloat (p_at 732500 9))) None (Some HOUR) (Some "Two") None None None None [] [] None None None None)%string.
  eexists. split; [apply run_reachable|]. split; [reflexivity|]. split; [reflexivity|]. split; [eexists; vm_compute; reflexivity|]. exists 3%nat.
  split; [vm_compute; reflexivity|]. split; [vm_compute; reflexivity|]. cbv zeta.
  split; [vm_compute; reflexivity|]. split; [vm_compute; reflexivity|]. split; [vm_compute; reflexivity|]. discriminate.
Qed.
Print Assumptions C66_repeated_refuted.

(** An event for which no organizer is found (the text names none that is known and
    the calendar has no attendees) and which the second import shows: that import
    fails, as it asks for the participation of nobody. *)
Theorem C66_no_organizer cf s c vs p cr sync s' n v u : reachable cf s -> NoDup (import_uids vs) ->
  step cf s (OImport c (Ok (Some vs)) p cr sync) = (s', n, Ok tt) ->
  In v vs -> v_uid v = Some u -> says_organizer (source_knows s) (main_attendee s c) v None ->
  visible s' c p cr u -> (forall d, made cf s c p cr vs s' u d -> whole d) ->
  srs (step cf s' (OImport c (Ok (Some vs)) p cr sync)) <> Ok tt.
Proof.
  intros H ND E Hv V SO VI WH X. destruct (again_finds cf s c vs p cr sync s' n H ND E) as (H' & SRC & CAL & FIND & _).
  destruct (step cf s' (OImport c (Ok (Some vs)) p cr sync)) as [[s'' n''] x] eqn:ST. unfold srs in X. cbn [snd] in X. subst x.
  destruct (FIND v Hv) as (u' & r & V' & G & Y). assert (u' = u) by congruence. subst u'. destruct (Y VI) as (sp & IS & O).
  assert (SORG : s_organizer sp = None).
  { destruct (import_spec_says _ _ _ _ _ IS) as (_ & SO' & _). unfold says_organizer in SO, SO'.
    destruct (v_organizer v) as [y|]; [destruct (source_knows s y)|]; congruence. }
  assert (AG : attrs_differ sp (obj s' r) = true -> False).
  { intros D. assert (F : will_modify sp (obj s' r) = Ok false \/ fresh sp (obj s' r)).
    { destruct O as [(W & _)|[(F & _)|(NE & _ & HE)]]; [now left|now right|right].
      destruct (new_again _ _ _ v sp u (obj s' r) IS NE) as (d & ST' & Z). cbv zeta in Z. destruct Z as (F & A1 & A2 & _).
      assert (DU : e_duration (obj s' r) = Some d).
      { destruct (s_allday sp) eqn:AD; [|now apply A1]. apply A2; [reflexivity|]. apply (WH d). exists v, (s_dtstart sp). auto. }
      assert (Z : with_time (obj s' r) (e_dtstart (obj s' r)) (Some d) = obj s' r) by (apply event_ext; cbn; congruence).
      now rewrite Z in F. }
    destruct F as [F|F]; [unfold will_modify in F; rewrite D in F; discriminate|].
    destruct (fresh_attrs sp _ F) as [A _]. apply attrs_differ_iff in A. congruence. }
  destruct (C85_import_exact cf s' c vs p cr sync s'' n'' H' ND ST) as (ns & del & EN & FA & _).
  destruct (forall2_in _ _ _ FA) as [FA1 _]. destruct (FA1 v Hv) as (nv & Hnv & (u2 & r2 & V2 & G2 & O2)).
  assert (u2 = u) by congruence. subst u2. destruct (same_source s s' c SRC CAL) as [SK SM].
  destruct O2 as [(_ & G3 & sp2 & IS2 & O2)|[(N & _)|(N & _)]]; [|unfold has_event in N; rewrite G in N; discriminate|contradiction].
  rewrite SK, SM in IS2. assert (sp2 = sp) by congruence. subst sp2. assert (r2 = r) by congruence. subst r2.
  unfold will_modify in O2. destruct (attrs_differ sp (obj s' r)); [now apply AG|]. rewrite SORG in O2.
  destruct O2 as [(W2 & _)|(W2 & _)]; cbn in W2; discriminate.
Qed.
Print Assumptions C66_no_organizer.

(** Refuted so as well: a calendar without attendees and criteria that name bob *)
Theorem C66_no_organizer_refuted : exists s c vs cr s' n v u, reachable cf0 s /\ NoDup (import_uids vs)
  /\ step cf0 s (OImport c (Ok (Some vs)) (None, None) (Some cr) false) = (s', n, Ok tt)
  /\ In v vs /\ v_uid v = Some u /\ says_organizer (source_knows s) (main_attendee s c) v None
  /\ visible s' c (None, None) (Some cr) u /\ (forall d, made cf0 s c (None, None) (Some cr) vs s' u d -> whole d)
  /\ srs (step cf0 s' (OImport c (Ok (Some vs)) (None, None) (Some cr) false)) = Raise AttributeError.
Proof.
  set (v := (mkV (Some "n1") (Some (IFloat (p_at 732500 9))) None (Some HOUR) (Some "One") None None None None
    [("bob", None, None)] [] None None None None)%string).
  exists (run cf0 (office ++ [OCalendar])), 1%nat, [v], (mk_criteria (AOne bob) None None None None).
  do 2 eexists. exists v, "n1"%string. split; [apply run_reachable|]. split; [cbn; constructor; [intros []|constructor]|].
  split; [vm_compute; reflexivity|]. split; [now left|]. split; [reflexivity|]. split; [vm_compute; reflexivity|]. split; [|split].
  - eexists; eexists. split; [vm_compute; reflexivity|]. split; [do 2 right; left; reflexivity|]. vm_compute. reflexivity.
  - intros d (w & t & [<-|[]] & _ & _ & _ & (t0 & E & L & AD & _)). cbn in E. injection E as <-. discriminate AD.
  - vm_compute. reflexivity.
Qed.
Print Assumptions C66_no_organizer_refuted.
