(** What an import can and cannot do to the system. *)
From Verif Require Import Base PyDate DateFacts Recurrent CalTime TimeProofs Event Storage ICal System
  QueryProofs EventProofs SpecProofs SystemProofs IdProofs.
From Coq Require Import ZifyBool.
Ltac Zify.zify_post_hook ::= Z.div_mod_to_equations.
Local Opaque ord2ymd year_of month_of day_of ymd2ord days_in_month is_leap.

(** [s'] differs from [s] only in the objects stored under [known] ids and in
    new objects stored under new ids taken from [uids] *)
Definition frame (known uids : list string) (s s' : system) : Prop :=
  (forall r, (r < List.length (sys_heap s))%nat -> (forall u, In u known -> dget (sys_store s) u <> Some r) -> obj s' r = obj s r)
  /\ (forall u r, dget (sys_store s) u = Some r -> dget (sys_store s') u = Some r)
  /\ (forall u r, dget (sys_store s') u = Some r -> dget (sys_store s) u = None ->
        (List.length (sys_heap s) <= r)%nat /\ In u uids)
  /\ (List.length (sys_heap s) <= List.length (sys_heap s'))%nat
  /\ sys_source s' = sys_source s /\ sys_cals s' = sys_cals s.

Lemma frame_refl known uids s : frame known uids s s.
Proof. repeat split; auto; intros; congruence. Qed.

Lemma frame_trans known uids a b c : frame known uids a b -> frame known uids b c -> frame known uids a c.
Proof.
  intros (A1 & A2 & A3 & A4 & A5 & A6) (B1 & B2 & B3 & B4 & B5 & B6). split; [|split; [|split; [|split; [|split]]]].
  - intros r Hr H. rewrite B1; [now apply A1|lia|]. intros u Hu X.
    destruct (dget (sys_store a) u) as [r0|] eqn:E.
    + apply A2 in E as E'. assert (r0 = r) by congruence. subst. now apply (H u).
    + destruct (A3 u r X E). lia.
  - auto.
  - intros u r X E. destruct (dget (sys_store b) u) as [r0|] eqn:Eb.
    + apply B2 in Eb as E'. assert (r0 = r) by congruence. subst. now apply A3.
    + destruct (B3 u r X Eb). split; [lia|assumption].
  - lia.
  - congruence.
  - congruence.
Qed.

Definition frameT (known uids : list string) : system -> list notification -> system -> Prop :=
  fun s _ s' => frame known uids s s'.
Lemma frameT_trans known uids : T_trans (frameT known uids).
Proof. intros a n1 b n2 c. apply frame_trans. Qed.

Lemma create_frame known uids cf s u sp now : In u uids -> has_event s u = false ->
  frame known uids s (sst (create_event cf s (Some u) sp now)).
Proof.
  intros Hu He. destruct (create_spec cf s (Some u) sp now) as [(r & e & E & R & _)|(E & _)].
  - rewrite E. unfold sst. cbn [fst]. rewrite has_event_dget in He. destruct (dget (sys_store s) u) eqn:D; [discriminate|].
    split; [|split; [|split; [|split; [|split]]]].
    + intros k Hk _. unfold obj. cbn [sys_heap]. now apply app_obj.
    + cbn. intros v k X. rewrite dget_dset. destruct (String.eqb_spec v u) as [->|]; [congruence|exact X].
    + cbn. intros v k. rewrite dget_dset. destruct (String.eqb_spec v u) as [->|]; [|congruence].
      intros X _. injection X as <-. split; [lia|exact Hu].
    + cbn. rewrite app_length. lia.
    + reflexivity.
    + reflexivity.
  - rewrite E. apply frame_refl.
Qed.

Lemma on_event_frame known uids s r f u : In u known -> dget (sys_store s) u = Some r ->
  frame known uids s (sst (on_event s r f)).
Proof.
  intros Hu D. unfold on_event. destruct (f (obj s r)) as [[e n] x]. unfold sst. cbn [fst].
  split; [|split; [|split; [|split; [|split]]]]; try reflexivity.
  - intros k Hk H. rewrite obj_heap, replace_nth_get.
    destruct ((k =? r)%nat && (r <? List.length (sys_heap s))%nat) eqn:B; [|reflexivity].
    apply Bool.andb_true_iff in B as [B _]. apply Nat.eqb_eq in B. subst. exfalso. now apply (H u).
  - cbn. auto.
  - cbn. intros. congruence.
  - cbn. now rewrite replace_nth_length.
Qed.

Lemma import_existing_frame known uids cf s c uid v : In uid known ->
  frame known uids s (sst (import_existing cf s c uid v)).
Proof.
  intros H. unfold import_existing. rewrite sbind_slift.
  destruct (get_event s uid) as [r| |] eqn:G; try apply frame_refl.
  assert (D : dget (sys_store s) uid = Some r) by (unfold get_event in G; destruct (dget _ _); congruence).
  rewrite sbind_slift. destruct (import_spec _ _ _ v) as [sp| |]; try apply frame_refl.
  rewrite sbind_slift. destruct (will_modify sp (obj s r)) as [[|]| |]; try apply frame_refl.
  apply (sbind_T (frameT known uids) _ _ s (frameT_trans _ _)); [now apply (on_event_frame known uids s r _ uid)|].
  intros [] _. apply frame_refl.
Qed.

Lemma import_one_frame known uids cf s c v : (forall u, v_uid v = Some u -> In u uids) ->
  frame known uids s (sst (import_one cf s c known v)).
Proof.
  intros H. unfold import_one. destruct (v_uid v) as [uid|]; [|apply frame_refl].
  destruct (str_in uid known) eqn:K.
  - apply (sbind_T (frameT known uids) _ _ s (frameT_trans _ _)).
    + apply import_existing_frame. now apply str_in_iff.
    + intros [] _. apply frame_refl.
  - destruct (has_event s uid) eqn:E; [apply frame_refl|].
    apply (sbind_T (frameT known uids) _ _ s (frameT_trans _ _)).
    + unfold import_new. rewrite sbind_slift. destruct (import_spec _ _ _ v) as [sp| |]; try apply frame_refl.
      apply (sbind_T (frameT known uids) _ _ s (frameT_trans _ _)); [apply create_frame; auto|]. intros r _. apply frame_refl.
    + intros [] _. apply frame_refl.
Qed.

Lemma import_loop_frame known uids cf c l : (forall u, In u (import_uids l) -> In u uids) ->
  forall s, frame known uids s (sst (import_loop cf s c known l)).
Proof.
  induction l as [|v l IH]; intros H s; [apply frame_refl|]. cbn [import_loop].
  apply (sbind_T (frameT known uids) _ _ s (frameT_trans _ _)).
  - apply import_one_frame. intros u V. apply H. unfold import_uids. cbn [flat_map]. rewrite V. now left.
  - intros uid _. apply (sbind_T (frameT known uids) _ _ _ (frameT_trans _ _)).
    + apply IH. intros u Hu. apply H. unfold import_uids. cbn [flat_map]. apply in_or_app. now right.
    + intros us _. apply frame_refl.
Qed.

(** the loop succeeds only if every component was dealt with *)
Lemma import_one_ok cf s c known v u : (forall k, In k known -> has_event s k = true) ->
  srs (import_one cf s c known v) = Ok u ->
  v_uid v = Some u /\ has_event (sst (import_one cf s c known v)) u = true.
Proof.
  intros KN. unfold import_one. destruct (v_uid v) as [uid|]; [|discriminate].
  destruct (str_in uid known) eqn:K.
  - intros E. apply sbind_inv_ok in E as ([] & E1 & E2 & E3 & _). rewrite E3. cbn in E2. assert (uid = u) by congruence. subst.
    split; [reflexivity|]. apply str_in_iff in K.
    destruct (import_existing_frame known [] cf s c u v K) as (_ & F & _). specialize (KN u K).
    unfold sst at 1. cbn [sret fst]. rewrite has_event_dget in *.
    destruct (dget (sys_store s) u) eqn:D; [|discriminate]. now rewrite (F _ _ D).
  - destruct (has_event s uid) eqn:H.
    + intros E. cbn in E. assert (uid = u) by congruence. subst. auto.
    + intros E. apply sbind_inv_ok in E as ([] & E1 & E2 & E3 & _). rewrite E3. cbn in E2. assert (uid = u) by congruence. subst.
      split; [reflexivity|]. unfold sst at 1. cbn [sret fst]. unfold import_new in *. rewrite sbind_slift in *.
      destruct (import_spec _ _ _ v) as [sp| |]; try discriminate.
      apply sbind_inv_ok in E1 as (r & E4 & _ & E5 & _). rewrite E5. unfold sst at 1. cbn [sret fst].
      destruct (create_spec cf s (Some u) sp 0) as [(r' & e & -> & _)|(_ & _ & X)]; [|now apply X in E4].
      unfold sst. cbn [fst]. rewrite has_event_dget. cbn. now rewrite dget_dset, String.eqb_refl.
Qed.

Lemma frame_has known uids s s' u : frame known uids s s' -> has_event s u = true -> has_event s' u = true.
Proof.
  intros (_ & F & _) H. rewrite has_event_dget in *. destruct (dget (sys_store s) u) eqn:D; [|discriminate].
  now rewrite (F _ _ D).
Qed.

Lemma import_loop_ok cf c known l : forall s us, (forall k, In k known -> has_event s k = true) ->
  srs (import_loop cf s c known l) = Ok us ->
  us = import_uids l /\ (forall v, In v l -> v_uid v <> None)
  /\ forall u, In u us -> has_event (sst (import_loop cf s c known l)) u = true.
Proof.
  induction l as [|v l IH]; intros s us KN E; cbn [import_loop] in *.
  - cbn in E. assert (us = []) by congruence. subst. split; [reflexivity|]. split; intros ? [].
  - apply sbind_inv_ok in E as (u & E1 & E2 & E3 & _). rewrite E3.
    destruct (import_one_ok cf s c known v u KN E1) as [V H1].
    set (s1 := sst (import_one cf s c known v)) in *.
    apply sbind_inv_ok in E2 as (us' & E4 & E5 & E6 & _). rewrite E6. unfold sst at 1. cbn [sret fst].
    cbn in E5. assert (US : us = u :: us') by congruence. subst us.
    assert (F1 : frame known (import_uids (v :: l)) s s1).
    { apply import_one_frame. intros w W. unfold import_uids. cbn [flat_map]. rewrite W. now left. }
    destruct (IH s1 us') as (I1 & I2 & I3).
    { intros k Hk. eapply frame_has; [exact F1|auto]. }
    { exact E4. }
    split; [unfold import_uids; cbn [flat_map]; rewrite V; cbn; now f_equal|]. split.
    + intros w [<-|W]; [congruence|auto].
    + intros w [<-|W]; [|auto].
      refine (frame_has known (import_uids l) s1 _ u _ H1). apply import_loop_frame. auto.
Qed.

(** ** deleting *)
Lemma delete_event_ok s r u : store_inv s -> dget (sys_store s) u = Some r ->
  delete_event s r = (with_store s (drem (sys_store s) u), [NDeleted u], Ok tt).
Proof.
  intros [_ I] D. destruct (I u r D) as (_ & U & _). unfold delete_event, ddel. rewrite U, D. reflexivity.
Qed.

Lemma delete_loop_ok l : forall s, store_inv s -> NoDup l -> (forall u, In u l -> has_event s u = true) ->
  exists s', delete_loop s l = (s', map NDeleted l, Ok tt)
    /\ sys_heap s' = sys_heap s /\ sys_source s' = sys_source s /\ sys_cals s' = sys_cals s
    /\ forall u, dget (sys_store s') u = if str_in u l then None else dget (sys_store s) u.
Proof.
  induction l as [|u l IH]; intros s I N H.
  - exists s. repeat split.
  - cbn [delete_loop]. rewrite sbind_slift. pose proof (H u (or_introl eq_refl)) as Hu.
    rewrite has_event_dget in Hu. unfold get_event. destruct (dget (sys_store s) u) as [r|] eqn:D; [|discriminate].
    rewrite (delete_event_ok s r u I D). rewrite sbind_ok.
    pose proof (delete_tracks s r I) as (I' & _). rewrite (delete_event_ok s r u I D) in I'. unfold sst in I'. cbn [fst] in I'.
    inversion N as [|? ? N1 N2]; subst. destruct I as [IN _].
    set (s1 := with_store s (drem (sys_store s) u)) in *.
    destruct (IH s1 I' N2) as (s' & E & E1 & E2 & E3 & E4).
    { intros w W. subst s1. rewrite has_event_dget. cbn. rewrite dget_drem by exact IN.
      destruct (String.eqb_spec w u) as [->|]; [contradiction|]. specialize (H w (or_intror W)). now rewrite has_event_dget in H. }
    rewrite E. unfold sst, snt, srs. cbn [fst snd]. exists s'. split; [reflexivity|]. split; [exact E1|]. split; [exact E2|]. split; [exact E3|].
    intros w. rewrite E4. subst s1. cbn. rewrite dget_drem by exact IN.
    destruct (String.eqb_spec w u) as [->|]; cbn; [|reflexivity].
    now destruct (str_in u l).
Qed.

(** ** the calendar's own events *)
Lemma calendar_events_sub evs atts p cr l : calendar_events evs atts p cr = Ok l -> forall e, In e l -> In e evs.
Proof. unfold calendar_events. intros E. exact (get_events_sub _ _ _ _ E). Qed.

Lemma cal_events_stored s c p cr evs e : cal_events s c p cr = Ok evs -> In e evs ->
  exists u r, In (u, r) (sys_store s) /\ e = obj s r.
Proof.
  unfold cal_events. destruct (cal_attendees s c) as [atts| |]; try discriminate. cbn [rbind]. intros E H.
  apply (calendar_events_sub _ _ _ _ _ E) in H. unfold stored in H. apply in_map_iff in H as ([u r] & <- & H). eauto.
Qed.

Lemma cal_events_known s c p cr evs e : store_inv s -> cal_events s c p cr = Ok evs -> In e evs ->
  exists r, dget (sys_store s) (e_uid e) = Some r /\ e = obj s r.
Proof.
  intros [N I] E H. destruct (cal_events_stored s c p cr evs e E H) as (u & r & D & ->).
  apply in_dget in D; [|exact N]. destruct (I u r D) as (_ & U & _). exists r. rewrite U. auto.
Qed.

Definition visible (s : system) (c : nat) (p : period) (cr : option criteria) (u : string) : Prop :=
  exists evs e, cal_events s c p cr = Ok evs /\ In e evs /\ e_uid e = u.

(** the three ways an import can go before its loop *)
Lemma import_cases cf s c parsed p cr sync :
  let m := import_cal cf s c parsed p cr sync in
  (exists evs vs, cal_events s c p cr = Ok evs /\ parsed = Ok (Some vs)
     /\ m = sbind (import_loop cf s c (nodup string_dec (map e_uid evs)) vs) (fun s ical =>
              if sync then delete_loop s (filter (fun u => negb (str_in u ical)) (nodup string_dec (map e_uid evs))) else sret s tt))
  \/ (sst m = s /\ snt m = [] /\ (forall vs, parsed = Ok (Some vs) -> srs m <> Ok tt)).
Proof.
  cbv zeta. unfold import_cal. rewrite sbind_slift. destruct (cal_events s c p cr) as [evs|x|].
  2,3: right; repeat split; intros; discriminate.
  rewrite sbind_slift. destruct parsed as [[vs|]|x|].
  - left. exists evs, vs. auto.
  - right. repeat split; intros; discriminate.
  - right. repeat split; intros; discriminate.
  - right. repeat split; intros; discriminate.
Qed.

Lemma known_in evs u : In u (nodup string_dec (map e_uid evs)) <-> exists e, In e evs /\ e_uid e = u.
Proof. rewrite nodup_In, in_map_iff. split; intros (e & H1 & H2); eauto. Qed.

Lemma known_stored s c p cr evs : store_inv s -> cal_events s c p cr = Ok evs ->
  forall k, In k (nodup string_dec (map e_uid evs)) -> has_event s k = true.
Proof.
  intros I E k Hk. apply known_in in Hk as (e & He & <-).
  destruct (cal_events_known s c p cr evs e I E He) as (r & D & _). rewrite has_event_dget, D. reflexivity.
Qed.

(** ids in the text *)
Definition text_ids (parsed : res (option (list vevent))) : list string :=
  match parsed with Ok (Some vs) => import_uids vs | _ => [] end.

(** the whole import as a frame, up to the deletions *)
Lemma import_frame cf s c parsed p cr sync : store_inv s ->
  let s' := sst (import_cal cf s c parsed p cr sync) in
  exists s1 del, frame (match cal_events s c p cr with Ok evs => nodup string_dec (map e_uid evs) | _ => [] end) (text_ids parsed) s s1
    /\ sys_heap s' = sys_heap s1 /\ sys_source s' = sys_source s1 /\ sys_cals s' = sys_cals s1
    /\ (forall u, dget (sys_store s') u = if str_in u del then None else dget (sys_store s1) u)
    /\ (forall u, In u del -> visible s c p cr u /\ ~ In u (text_ids parsed))
    /\ (del <> [] -> sync = true /\ srs (import_cal cf s c parsed p cr sync) = Ok tt)
    /\ (sync = true -> srs (import_cal cf s c parsed p cr sync) = Ok tt -> forall vs, parsed = Ok (Some vs) ->
          forall u, In u del <-> visible s c p cr u /\ ~ In u (text_ids parsed))
    /\ (srs (import_cal cf s c parsed p cr sync) = Ok tt -> forall vs, parsed = Ok (Some vs) ->
          (forall v, In v vs -> v_uid v <> None) /\ forall u, In u (text_ids parsed) -> has_event s1 u = true)
    /\ (forall u, In u del -> In (NDeleted u) (snt (import_cal cf s c parsed p cr sync))).
Proof.
  intros I. cbv zeta. destruct (import_cases cf s c parsed p cr sync) as [(evs & vs & E1 & -> & E)|(E & EN & ER)].
  - rewrite E1, E. cbn [text_ids]. set (known := nodup string_dec (map e_uid evs)).
    set (m := import_loop cf s c known vs).
    assert (F : frame known (import_uids vs) s (sst m)) by (apply import_loop_frame; auto).
    assert (KN : forall k, In k known -> has_event s k = true) by (apply (known_stored s c p cr evs I E1)).
    assert (VIS : forall u, visible s c p cr u <-> In u known).
    { intros u. unfold known. rewrite known_in. split.
      - intros (evs' & e & X & Y & Z). assert (evs' = evs) by congruence. subst. eauto.
      - intros (e & Y & Z). exists evs, e. auto. }
    assert (OKL : forall ical, srs m = Ok ical -> _) by (intros ical R; exact (import_loop_ok cf c known vs s ical KN R)).
    fold m in OKL.
    assert (I1 : store_inv (sst m)) by (apply (import_loop_tracks cf c known vs s I)).
    destruct m as [[s1 n1] r1]. unfold sst in F, I1, OKL. unfold srs in OKL. cbn [fst snd] in F, I1, OKL.
    destruct r1 as [ical|x|].
    + destruct (OKL ical eq_refl) as (-> & V & H). clear OKL.
      rewrite sbind_ok. destruct sync.
      * set (del := filter (fun u => negb (str_in u (import_uids vs))) known).
        destruct (delete_loop_ok del s1 I1) as (s' & D & D1 & D2 & D3 & D4).
        { apply NoDup_filter. apply NoDup_nodup. }
        { intros u Hu. apply filter_In in Hu as [Hu _]. eapply frame_has; [exact F|auto]. }
        assert (DIN : forall u, In u del <-> visible s c p cr u /\ ~ In u (import_uids vs)).
        { intros u. unfold del. rewrite filter_In, VIS, Bool.negb_true_iff. split; intros [A B]; (split; [exact A|]).
          - intros X. apply str_in_iff in X. congruence.
          - destruct (str_in u (import_uids vs)) eqn:S; [|reflexivity]. apply str_in_iff in S. contradiction. }
        rewrite D. unfold sst, snt, srs. cbn [fst snd].
        exists s1, del. split; [exact F|]. split; [exact D1|]. split; [exact D2|]. split; [exact D3|].
        split; [exact D4|]. split; [intros u Hu; now apply DIN|]. split; [auto|]. split; [intros _ _ vs' _; exact DIN|].
        split; [intros _ vs' X; assert (vs' = vs) by congruence; subst; auto|].
        intros u Hu. apply in_or_app. right. now apply in_map.
      * unfold sst, snt, srs. cbn [fst snd sret]. exists s1, []. split; [exact F|]. repeat (split; [reflexivity|]).
        split; [intros u []|]. split; [intros X; now elim X|]. split; [discriminate|].
        split; [intros _ vs' X; assert (vs' = vs) by congruence; subst; auto|]. intros u [].
    + unfold sbind, sst, snt, srs. cbn [fst snd]. exists s1, []. split; [exact F|]. repeat (split; [reflexivity|]).
      split; [intros u []|]. split; [intros X; now elim X|]. split; [discriminate|]. split; [discriminate|]. intros u [].
    + unfold sbind, sst, snt, srs. cbn [fst snd]. exists s1, []. split; [exact F|]. repeat (split; [reflexivity|]).
      split; [intros u []|]. split; [intros X; now elim X|]. split; [discriminate|]. split; [discriminate|]. intros u [].
  - exists s, []. rewrite E. split; [apply frame_refl|]. repeat (split; [reflexivity|]).
    split; [intros u []|]. split; [intros X; now elim X|].
    split; [intros _ X vs P; exfalso; exact (ER vs P X)|]. split; [intros X vs P; exfalso; exact (ER vs P X)|]. intros u [].
Qed.

(** ** the notifications of an import *)
Definition about (known uids : list string) (n : notification) : Prop :=
  match n with
  | NCreated u => In u uids /\ ~ In u known
  | NModified u => In u uids /\ In u known
  | NDeleted u => In u known /\ ~ In u uids
  | NParticipation _ _ _ _ => False
  end.
Definition aboutT (known uids : list string) (s : system) (n : list notification) (s' : system) : Prop :=
  store_inv s -> store_inv s' /\ Forall (about known uids) n.

Lemma aboutT_refl known uids : T_refl (aboutT known uids).
Proof. intros s I. split; [exact I|constructor]. Qed.
Lemma aboutT_trans known uids : T_trans (aboutT known uids).
Proof.
  intros a n1 b n2 c H1 H2 I. destruct (H1 I) as [I1 F1]. destruct (H2 I1) as [I2 F2]. split; [exact I2|]. now apply Forall_app.
Qed.

Lemma import_existing_about known uids cf s c u v : In u uids -> In u known ->
  aboutT known uids s (snt (import_existing cf s c u v)) (sst (import_existing cf s c u v)).
Proof.
  intros H1 H2 I. split; [now apply (import_existing_tracks cf s c u v I)|].
  unfold import_existing. rewrite sbind_slift. destruct (get_event s u) as [r| |] eqn:G; try constructor.
  rewrite sbind_slift. destruct (import_spec _ _ _ v) as [sp| |]; try constructor.
  rewrite sbind_slift. destruct (will_modify sp (obj s r)) as [[|]| |]; try constructor.
  unfold get_event in G. destruct (dget (sys_store s) u) as [r0|] eqn:D; [|discriminate]. assert (r0 = r) by congruence. subst r0.
  destruct I as [_ I]. destruct (I u r D) as (L & U & _).
  pose proof (set_on_object_notes sp (obj s r)) as N. pose proof (set_on_object_uid sp (obj s r)) as U'.
  unfold on_event. unfold mnotes, mev in N, U'. destruct (set_on_object sp (obj s r)) as [[e n] x]. cbn [fst snd] in N, U'. subst n.
  destruct x as [[]| |]; try constructor; [|constructor].
  unfold about. rewrite obj_heap, replace_nth_get, Nat.eqb_refl. cbn [andb].
  destruct (Nat.ltb_spec r (List.length (sys_heap s))); [|lia]. rewrite U', U. auto.
Qed.

Lemma import_one_about known uids cf s c v : (forall u, v_uid v = Some u -> In u uids) ->
  aboutT known uids s (snt (import_one cf s c known v)) (sst (import_one cf s c known v)).
Proof.
  intros H. unfold import_one. destruct (v_uid v) as [u|]; [|apply aboutT_refl]. specialize (H u eq_refl).
  destruct (str_in u known) eqn:K.
  - apply str_in_iff in K. apply sbind_T; [apply aboutT_trans|now apply import_existing_about|]. intros [] _. apply aboutT_refl.
  - destruct (has_event s u); [apply aboutT_refl|]. apply sbind_T; [apply aboutT_trans| |intros [] _; apply aboutT_refl].
    unfold import_new. rewrite sbind_slift. destruct (import_spec _ _ _ v) as [sp| |]; try apply aboutT_refl.
    apply sbind_T; [apply aboutT_trans| |intros r _; apply aboutT_refl].
    intros I. split; [now apply (create_tracks cf s (Some u) sp 0 I)|].
    destruct (create_spec cf s (Some u) sp 0) as [(r & e & -> & _)|(_ & -> & _)]; [|constructor].
    constructor; [|constructor]. split; [exact H|]. intros X. apply str_in_iff in X. congruence.
Qed.

Lemma import_loop_about known uids cf c l : (forall u, In u (import_uids l) -> In u uids) ->
  forall s, aboutT known uids s (snt (import_loop cf s c known l)) (sst (import_loop cf s c known l)).
Proof.
  induction l as [|v l IH]; intros H s; [apply aboutT_refl|]. cbn [import_loop].
  apply sbind_T; [apply aboutT_trans| |].
  - apply import_one_about. intros u E. apply H. unfold import_uids. cbn [flat_map]. rewrite E. now left.
  - intros u _. apply sbind_T; [apply aboutT_trans|apply IH|intros; apply aboutT_refl].
    intros u' Hu'. apply H. unfold import_uids. cbn [flat_map]. apply in_or_app. now right.
Qed.

(** only visible events are modified or deleted, only new ids created *)
Lemma import_notes cf s c parsed p cr sync : store_inv s ->
  forall n, In n (snt (import_cal cf s c parsed p cr sync)) ->
  match n with
  | NCreated u => In u (text_ids parsed) /\ ~ visible s c p cr u
  | NModified u => In u (text_ids parsed) /\ visible s c p cr u
  | NDeleted u => visible s c p cr u /\ ~ In u (text_ids parsed)
  | NParticipation _ _ _ _ => False
  end.
Proof.
  intros I. destruct (import_cases cf s c parsed p cr sync) as [(evs & vs & E1 & -> & E)|(E & EN & ER)].
  2:{ rewrite EN. intros n []. }
  rewrite E. cbn [text_ids]. set (known := nodup string_dec (map e_uid evs)).
  assert (KN : forall k, In k known -> has_event s k = true) by (apply (known_stored s c p cr evs I E1)).
  assert (VIS : forall u, visible s c p cr u <-> In u known).
  { intros u. unfold known. rewrite known_in. split.
    - intros (evs' & e & X & Y & Z). assert (evs' = evs) by congruence. subst. eauto.
    - intros (e & Y & Z). exists evs, e. auto. }
  assert (F : frame known (import_uids vs) s (sst (import_loop cf s c known vs))) by (apply import_loop_frame; auto).
  assert (OKL := fun ical => import_loop_ok cf c known vs s ical KN).
  destruct (import_loop_about known (import_uids vs) cf c vs (fun u H => H) s I) as [I1 A].
  destruct (import_loop cf s c known vs) as [[s1 n1] r1]. unfold sst in F, I1. unfold snt in A. unfold srs in OKL. cbn [fst snd] in F, I1, A, OKL.
  assert (AB : Forall (about known (import_uids vs))
     (snt (sbind (s1, n1, r1) (fun s ical => if sync then delete_loop s (filter (fun u => negb (str_in u ical)) known) else sret s tt)))).
  { destruct r1 as [ical|x|]; [|exact A|exact A]. rewrite sbind_ok. destruct (OKL ical eq_refl) as (-> & _).
    unfold snt. cbn [fst snd]. apply Forall_app. split; [exact A|]. destruct sync; [|constructor].
    set (del := filter (fun u => negb (str_in u (import_uids vs))) known).
    destruct (delete_loop_ok del s1 I1) as (s' & D & _).
    { apply NoDup_filter. apply NoDup_nodup. }
    { intros u Hu. apply filter_In in Hu as [Hu _]. eapply frame_has; [exact F|auto]. }
    rewrite D. cbn [fst snd]. apply Forall_forall. intros n Hn. apply in_map_iff in Hn as (u & <- & Hu).
    apply filter_In in Hu as [Hu X]. cbn. split; [exact Hu|]. intros Y. apply str_in_iff in Y. rewrite Y in X. discriminate. }
  intros n Hn. apply (proj1 (Forall_forall _ _) AB) in Hn. destruct n; cbn in Hn; rewrite ?VIS; exact Hn.
Qed.
