(** Imports of texts in which an id occurs more than once: C70. *)
From Verif Require Import Base PyDate DateFacts Recurrent RecurMisc CalTime TimeProofs Event Storage ICal System
  QueryProofs BlockProofs EventProofs SpecProofs SystemProofs StoreProofs IdProofs ImportProofs PropEvent PropSystem
  ICalProofs ImportContent ImportTwice PropICal PropImport.
From Coq Require Import ZifyBool.
Ltac Zify.zify_post_hook ::= Z.div_mod_to_equations.
Local Opaque ord2ymd year_of month_of day_of ymd2ord days_in_month is_leap.

(** ** the loop on a text split in three *)
Lemma import_loop_app cf c known pre v post : forall s us, srs (import_loop cf s c known (pre ++ v :: post)) = Ok us ->
  exists us1 u us2, srs (import_loop cf s c known pre) = Ok us1
  /\ let s1 := sst (import_loop cf s c known pre) in srs (import_one cf s1 c known v) = Ok u
  /\ let s2 := sst (import_one cf s1 c known v) in srs (import_loop cf s2 c known post) = Ok us2
  /\ sst (import_loop cf s c known (pre ++ v :: post)) = sst (import_loop cf s2 c known post).
Proof.
  induction pre as [|w pre IH]; intros s us; cbn [app import_loop].
  - intros E. apply sbind_inv_ok in E as (u & E1 & E2 & E3 & _). apply sbind_inv_ok in E2 as (us2 & E4 & _ & E6 & _).
    exists [], u, us2. cbv zeta. unfold sret at 1. unfold srs at 1. cbn [snd]. split; [reflexivity|].
    unfold sst at 1 3 5 7. cbn [sret fst]. split; [exact E1|]. split; [exact E4|]. rewrite E3, E6. reflexivity.
  - intros E. apply sbind_inv_ok in E as (u0 & E1 & E2 & E3 & _). rewrite E3. clear E3.
    apply sbind_inv_ok in E2 as (us' & E4 & _ & E6 & _). rewrite E6. clear E6. unfold sst at 5. cbn [sret fst].
    destruct (IH _ _ E4) as (us1 & u & us2 & A & B & C & D). exists (u0 :: us1), u, us2.
    assert (X : sbind (import_one cf s c known w) (fun s uid => sbind (import_loop cf s c known pre) (fun s uids => sret s (uid :: uids)))
      = (sst (import_loop cf (sst (import_one cf s c known w)) c known pre),
         snt (import_one cf s c known w) ++ snt (import_loop cf (sst (import_one cf s c known w)) c known pre) ++ [], Ok (u0 :: us1))).
    { destruct (import_one cf s c known w) as [[s1 n1] r1]. unfold srs, sst, snt in *. cbn [fst snd] in *. subst r1. rewrite sbind_ok.
      destruct (import_loop cf s1 c known pre) as [[s2 n2] r2]. cbn [fst snd] in *. subst r2. reflexivity. }
    rewrite X. unfold srs at 1. unfold sst at 1 3 5 7. cbn [fst snd]. split; [reflexivity|]. split; [exact B|]. split; [exact C|exact D].
Qed.

(** the deletions do not touch what the text mentions *)
Lemma import_last cf s c vs p cr sync : store_inv s -> srs (import_cal cf s c (Ok (Some vs)) p cr sync) = Ok tt ->
  exists evs us, cal_events s c p cr = Ok evs /\ let known := nodup string_dec (map e_uid evs) in
  srs (import_loop cf s c known vs) = Ok us
  /\ let s1 := sst (import_loop cf s c known vs) in let s' := sst (import_cal cf s c (Ok (Some vs)) p cr sync) in
     sys_heap s' = sys_heap s1 /\ forall u, In u (import_uids vs) -> dget (sys_store s') u = dget (sys_store s1) u.
Proof.
  intros I. destruct (import_cases cf s c (Ok (Some vs)) p cr sync) as [(evs & vs' & E1 & E2 & ->)|(_ & _ & ER)].
  2:{ intros X. now elim (ER vs eq_refl). }
  assert (vs' = vs) by congruence. subst vs'. intros R. exists evs. set (known := nodup string_dec (map e_uid evs)) in *.
  assert (KN : forall k, In k known -> has_event s k = true) by (apply (known_stored s c p cr evs I E1)).
  apply sbind_inv_ok in R as (ical & R1 & _ & R2 & _). exists ical. split; [exact E1|]. cbv zeta. split; [exact R1|]. rewrite R2. clear R2.
  destruct (import_loop_ok cf c known vs s ical KN R1) as (IC & _ & _).
  pose proof (import_loop_tracks cf c known vs s I) as (I1 & _).
  set (s1 := sst (import_loop cf s c known vs)) in *. destruct sync; [|auto].
  destruct (delete_loop_ok (filter (fun u => negb (str_in u ical)) known) s1 I1) as (s' & DL & D1 & _ & _ & D4).
  - apply NoDup_filter. apply NoDup_nodup.
  - intros w W. apply filter_In in W as [W _]. eapply frame_has; [apply (import_loop_frame known (import_uids vs)); auto|auto].
  - rewrite DL. unfold sst at 1 2. cbn [fst]. split; [exact D1|]. intros u Hu. rewrite D4.
    destruct (str_in u _) eqn:S; [|reflexivity]. apply str_in_iff, filter_In in S as [_ S]. rewrite IC in S.
    apply str_in_iff in Hu. rewrite Hu in S. discriminate S.
Qed.

Lemma uids_app a b : import_uids (a ++ b) = import_uids a ++ import_uids b.
Proof. unfold import_uids. apply flat_map_app. Qed.

(** importing the first components only *)
Lemma import_prefix cf s c pre p cr evs us : cal_events s c p cr = Ok evs ->
  srs (import_loop cf s c (nodup string_dec (map e_uid evs)) pre) = Ok us ->
  exists n, import_cal cf s c (Ok (Some pre)) p cr false = (sst (import_loop cf s c (nodup string_dec (map e_uid evs)) pre), n, Ok tt).
Proof.
  intros E L. unfold import_cal. rewrite sbind_slift, E, sbind_slift.
  destruct (import_loop cf s c (nodup string_dec (map e_uid evs)) pre) as [[s1 n1] r1]. unfold srs in L. cbn [snd] in L. subst r1.
  rewrite sbind_ok. eexists. reflexivity.
Qed.

(** * C70: repeated ids in one text *)
(** An event the calendar shows ends up as the last component with its id says;
    that component sees the participants the ones before it have left. *)
Theorem C70_last_wins cf s c pre v post p cr sync s' n u : reachable cf s ->
  step cf s (OImport c (Ok (Some (pre ++ v :: post))) p cr sync) = (s', n, Ok tt) ->
  v_uid v = Some u -> (forall w, In w post -> v_uid w <> Some u) -> visible s c p cr u ->
  exists r s1 n1, get_event s u = Ok r /\ get_event s' u = Ok r
    /\ step cf s (OImport c (Ok (Some pre)) p cr false) = (s1, n1, Ok tt)
    /\ updated (cf_tz cf) v (obj s' r)
    /\ says_organizer (source_knows s) (main_attendee s c) v (get_organizer_id (obj s' r))
    /\ forall i old, get_status (obj s1 r) (Some i) = Ok old ->
         get_status (obj s' r) (Some i) = Ok (said_status v (get_organizer_id (obj s' r)) old i).
Proof.
  intros H E V NP VIS. apply reachable_store in H. cbn [step] in E.
  destruct (import_last cf s c _ p cr sync H ltac:(rewrite E; reflexivity)) as (evs & us & CE & LO & HE & ST).
  rewrite E in HE, ST. unfold sst at 1 in HE. unfold sst at 1 in ST. cbn [fst] in HE, ST.
  set (known := nodup string_dec (map e_uid evs)) in *.
  assert (K : In u known).
  { unfold known. apply known_in. destruct VIS as (evs' & e & X & Y & Z). assert (evs' = evs) by congruence. subst. eauto. }
  assert (KN : forall k, In k known -> has_event s k = true) by (apply (known_stored s c p cr evs H CE)).
  destruct (import_loop_app _ _ _ _ _ _ _ _ LO) as (us1 & u' & us2 & A & B & C & D).
  destruct (import_prefix cf s c pre p cr evs us1 CE A) as (n1 & P1).
  pose proof (import_loop_tracks cf c known pre s H) as (I1 & _).
  pose proof (import_loop_frame known (import_uids pre) cf c pre (fun u Hu => Hu) s) as F1. unfold frameT in F1.
  fold known in P1. set (s1 := sst (import_loop cf s c known pre)) in *.
  assert (KN1 : forall k, In k known -> has_event s1 k = true) by (intros k Hk; eapply frame_has; [exact F1|auto]).
  destruct (import_one_outcome cf s1 c known v u' I1 KN1 B) as [V' (r & D1 & O)]. assert (u' = u) by congruence. subst u'.
  destruct O as [(_ & O1 & O2 & O3 & O4)|[(O & _)|(O & _)]]; [|contradiction|contradiction].
  pose proof (import_one_tracks cf s1 c known v I1) as (I2 & _).
  set (s2 := sst (import_one cf s1 c known v)) in *.
  assert (NU : ~ In u (import_uids post)).
  { unfold import_uids. rewrite in_flat_map. intros (w & W1 & W2). apply (NP w W1). destruct (v_uid w) as [x|]; [|destruct W2].
    destruct W2 as [->|[]]. reflexivity. }
  destruct (frame_other _ _ s2 _ u I2 (import_loop_frame1 cf c known post s2) NU NU) as [G1 G2].
  rewrite D in HE, ST. set (s3 := sst (import_loop cf s2 c known post)) in *.
  assert (DS : dget (sys_store s) u = Some r).
  { specialize (KN u K). rewrite has_event_dget in KN. destruct (dget (sys_store s) u) as [r0|] eqn:DS; [|discriminate].
    destruct F1 as (_ & F & _). rewrite (F u r0 DS) in O3. exact O3. }
  assert (DS' : dget (sys_store s') u = Some r).
  { rewrite ST, G1; [exact D1|]. rewrite uids_app. apply in_or_app. right. unfold import_uids. cbn [flat_map]. rewrite V. now left. }
  assert (OB : obj s' r = obj s2 r).
  { transitivity (obj s3 r); [unfold obj; now rewrite HE|]. now apply G2. }
  destruct F1 as (_ & _ & _ & _ & FS & FC). destruct (same_source s s1 c FS FC) as [SK SM]. rewrite SK, SM in O2.
  exists r, s1, n1. unfold get_event. rewrite DS, DS'. split; [reflexivity|]. split; [reflexivity|].
  split; [exact P1|]. unfold get_organizer_id. rewrite OB. split; [exact O1|]. split; [exact O2|].
  intros i old G. unfold get_status in *. cbn [attendee_id rbind] in *. f_equal. assert (old = dget (e_state (obj s1 r)) i) by congruence.
  subst old. apply O4.
Qed.
Print Assumptions C70_last_wins.

(** A new event is made from the first component with its id; the others are
    ignored. *)
Theorem C70_first_wins cf s c pre v post p cr sync s' n u : reachable cf s ->
  step cf s (OImport c (Ok (Some (pre ++ v :: post))) p cr sync) = (s', n, Ok tt) ->
  v_uid v = Some u -> (forall w, In w pre -> v_uid w <> Some u) -> has_event s u = false ->
  exists r, get_event s' u = Ok r /\ created (cf_tz cf) v (obj s' r)
    /\ says_organizer (source_knows s) (main_attendee s c) v (get_organizer_id (obj s' r))
    /\ forall i, get_status (obj s' r) (Some i) = Ok (said_status v (get_organizer_id (obj s' r)) None i)
              /\ get_role (obj s' r) (Some i) = Ok (said_role v (get_organizer_id (obj s' r)) None i).
Proof.
  intros H E V NP NEW. apply reachable_store in H. cbn [step] in E.
  destruct (import_last cf s c _ p cr sync H ltac:(rewrite E; reflexivity)) as (evs & us & CE & LO & HE & ST).
  rewrite E in HE, ST. unfold sst at 1 in HE. unfold sst at 1 in ST. cbn [fst] in HE, ST.
  set (known := nodup string_dec (map e_uid evs)) in *.
  assert (KN : forall k, In k known -> has_event s k = true) by (apply (known_stored s c p cr evs H CE)).
  assert (NK : ~ In u known) by (intros K; rewrite (KN u K) in NEW; discriminate).
  destruct (import_loop_app _ _ _ _ _ _ _ _ LO) as (us1 & u' & us2 & A & B & C & D).
  pose proof (import_loop_tracks cf c known pre s H) as (I1 & _).
  pose proof (import_loop_frame1 cf c known pre s) as F0.
  pose proof (import_loop_frame known (import_uids pre) cf c pre (fun u Hu => Hu) s) as F1. unfold frameT in F1.
  set (s1 := sst (import_loop cf s c known pre)) in *.
  assert (KN1 : forall k, In k known -> has_event s1 k = true) by (intros k Hk; eapply frame_has; [exact F1|auto]).
  assert (NU : ~ In u (import_uids pre)).
  { unfold import_uids. rewrite in_flat_map. intros (w & W1 & W2). apply (NP w W1). destruct (v_uid w) as [x|]; [|destruct W2].
    destruct W2 as [->|[]]. reflexivity. }
  destruct (frame_other _ _ s s1 u H F0 NU NU) as [G1 _]. rewrite has_event_dget in NEW.
  destruct (dget (sys_store s) u) eqn:DS; [discriminate|].
  destruct (import_one_outcome cf s1 c known v u' I1 KN1 B) as [V' (r & D1 & O)]. assert (u' = u) by congruence. subst u'.
  destruct O as [(O & _)|[(_ & _ & O1 & O2 & O3)|(_ & O & _)]]; [contradiction| |congruence].
  pose proof (import_one_tracks cf s1 c known v I1) as (I2 & _).
  set (s2 := sst (import_one cf s1 c known v)) in *.
  pose proof (import_loop_frame known (import_uids post) cf c post (fun u Hu => Hu) s2) as F2. unfold frameT in F2.
  rewrite D in HE, ST. set (s3 := sst (import_loop cf s2 c known post)) in *.
  destruct F2 as (F21 & F22 & _).
  assert (DS' : dget (sys_store s') u = Some r).
  { rewrite ST; [now apply F22|]. rewrite uids_app. apply in_or_app. right. unfold import_uids. cbn [flat_map]. rewrite V. now left. }
  assert (OB : obj s' r = obj s2 r).
  { transitivity (obj s3 r); [unfold obj; now rewrite HE|]. destruct I2 as [_ I2]. destruct (I2 u r D1) as (L & U & _).
    apply F21; [exact L|]. intros w W X. destruct (I2 w r X) as (_ & U' & _). assert (w = u) by congruence. rewrite H0 in W. exact (NK W). }
  destruct F1 as (_ & _ & _ & _ & FS & FC). destruct (same_source s s1 c FS FC) as [SK SM]. rewrite SK, SM in O2.
  exists r. unfold get_event, get_organizer_id, get_status, get_role. rewrite DS', OB. split; [reflexivity|]. split; [exact O1|]. split; [exact O2|].
  cbn [attendee_id rbind]. intros i. destruct O3 as (_ & _ & O3). destruct (O3 i) as [Q1 Q2]. split; f_equal; assumption.
Qed.
Print Assumptions C70_first_wins.

(** An id the store knows but the calendar does not show: none of its components
    changes anything. *)
Theorem C70_hidden cf s c vs p cr sync u r : reachable cf s -> get_event s u = Ok r -> ~ visible s c p cr u ->
  let s' := sst (step cf s (OImport c (Ok (Some vs)) p cr sync)) in get_event s' u = Ok r /\ obj s' r = obj s r.
Proof.
  intros H G NV. apply reachable_store in H. cbn [step]. cbv zeta. pose proof H as I.
  destruct (import_frame cf s c (Ok (Some vs)) p cr sync H) as (s1 & del & F & D1 & _ & _ & D4 & D5 & _).
  unfold get_event in *. destruct (dget (sys_store s) u) as [r0|] eqn:D; [|discriminate]. assert (r0 = r) by congruence. subst r0.
  set (s' := sst (import_cal cf s c (Ok (Some vs)) p cr sync)) in *. destruct F as (F1 & F2 & _).
  split.
  - rewrite D4. destruct (str_in u del) eqn:S; [apply str_in_iff in S; now apply D5 in S|]. now rewrite (F2 u r D).
  - transitivity (obj s1 r); [unfold obj; now rewrite D1|]. destruct H as [_ H]. destruct (H u r D) as (L & U & _). apply F1; [exact L|].
    intros w W X. destruct (H w r X) as (_ & U' & _). assert (w = u) by congruence. subst w. apply NV.
    destruct (cal_events s c p cr) as [evs| |] eqn:CE; [|destruct W|destruct W]. apply known_in in W as (e & He & W). exists evs, e. split; [exact CE|]. split; [exact He|congruence].
Qed.
Print Assumptions C70_hidden.

(** a1 twice: the second title wins, both statuses count; n1 twice: the first one is taken *)
Definition x_repeat : list vevent :=
  [mkV (Some "a1") (Some (IFloat (p_at 732500 9))) None (Some HOUR) (Some "One") None None None None
     [("bob", Some "DECLINED", None)] [] None None None None;
   x_event "n1" 732505 "First" [];
   mkV (Some "a1") (Some (IFloat (p_at 732500 9))) None (Some HOUR) (Some "Two") None None None None
     [("ann", Some "TENTATIVE", None)] [] None None None None;
   x_event "n1" 732506 "Second" []]%string.

Example C70_case : let m := step cf0 (run cf0 office) (OImport 0 (Ok (Some x_repeat)) (None, None) None true) in
  reachable cf0 (run cf0 office) /\ visible (run cf0 office) 0 (None, None) None "a1" /\ has_event (run cf0 office) "n1" = false
  /\ srs m = Ok tt /\ e_title (obj (sst m) 0) = "Two"%string
  /\ e_state (obj (sst m) 0) = [("ann", "TENTATIVE"); ("bob", "DECLINED")]%string
  /\ get_event (sst m) "n1" = Ok 3%nat /\ e_title (obj (sst m) 3) = "First"%string.
Proof.
  cbv zeta. split; [apply run_reachable|]. split.
  - eexists. eexists. split; [vm_compute; reflexivity|]. split; [left; reflexivity|]. reflexivity.
  - vm_compute. repeat split.
Qed.
