(** What a failed import leaves behind: C53 and C64, exactly. *)
From Verif Require Import Base PyDate DateFacts Recurrent RecurMisc CalTime TimeProofs Event Storage ICal System
  QueryProofs BlockProofs EventProofs SpecProofs SystemProofs StoreProofs IdProofs ImportProofs PropEvent PropSystem
  ICalProofs ImportContent ImportTwice PropICal PropImport.
From Coq Require Import ZifyBool.
Ltac Zify.zify_post_hook ::= Z.div_mod_to_equations.
Local Opaque ord2ymd year_of month_of day_of ymd2ord days_in_month is_leap.

(** ** specification *)
(** the component with only some of its ATTENDEE lines *)
Definition with_lines (v : vevent) (l : list (string * option string * option string)) : vevent :=
  mkV (v_uid v) (v_dtstart v) (v_dtend v) (v_duration v) (v_summary v) (v_description v) (v_location v) (v_status v)
    (v_organizer v) l (v_categories v) (v_transp v) (v_class v) (v_attach v) (v_rrule v).

(** an ATTENDEE line that cannot be imported: nobody knows the participant, or
    the role is none of the four *)
Definition bad_line (known : string -> bool) (a : string * option string * option string) : Prop :=
  known (fst (fst a)) = false \/ ~ In (text (snd a) "REQ-PARTICIPANT") ["CHAIR"; "REQ-PARTICIPANT"; "OPT-PARTICIPANT"; "NON-PARTICIPANT"]%string.

(** [e'] is [e] changed as the component says up to its first bad line *)
Definition half_updated (cf : config) (s : system) (c : nat) (v : vevent) (e e' : event) : Prop :=
  exists l1 a l2, v_attendees v = l1 ++ a :: l2
  /\ bad_line (source_knows s) a /\ (forall b, In b l1 -> ~ bad_line (source_knows s) b)
  /\ e_uid e' = e_uid e /\ updated (cf_tz cf) v e'
  /\ says_organizer (source_knows s) (main_attendee s c) v (e_organizer e')
  /\ forall i, dget (e_state e') i = said_status (with_lines v l1) (e_organizer e') (dget (e_state e) i) i
            /\ dget (e_role e') i = said_role (with_lines v l1) (e_organizer e') (dget (e_role e) i) i.

(** ** proofs *)
Lemma roles_list r : In r ["CHAIR"; "REQ-PARTICIPANT"; "OPT-PARTICIPANT"; "NON-PARTICIPANT"]%string <-> In r roles.
Proof. unfold roles. cbn. intuition. Qed.

Lemma set_lines_fail known l : forall e e' n x, set_attendees e (map (line_entry known) l) = (e', n, x) -> x <> Ok tt ->
  exists l1 a l2 n1, l = l1 ++ a :: l2 /\ bad_line known a /\ (forall b, In b l1 -> ~ bad_line known b)
  /\ set_attendees e (map (line_entry known) l1) = (e', n1, Ok tt).
Proof.
  induction l as [|[[j ps] ro] l IH]; intros e e' n x; cbn [map line_entry set_attendees].
  - intros E N. congruence.
  - change (mbind (set_role e ?a ?b) (fun e1 => set_status_raw e1 ?a ?c)) with (entry_step e a b c).
    intros E N.
    assert (D : bad_line known (j, ps, ro) \/ (known j = true /\ In (text ro "REQ-PARTICIPANT") roles)).
    { unfold bad_line. cbn [fst snd]. rewrite roles_list. destruct (known j); [|auto].
      destruct (in_dec string_dec (text ro "REQ-PARTICIPANT") roles); auto. }
    destruct D as [B|[K R]].
    + exists [], (j, ps, ro), l, []. split; [reflexivity|]. split; [exact B|]. split; [intros b []|]. cbn [map set_attendees].
      assert (e' = e); [|congruence]. unfold bad_line in B. cbn [fst snd] in B. rewrite roles_list in B. unfold entry_step, set_role in E.
      destruct (str_in (text ro "REQ-PARTICIPANT") roles) eqn:SR; [|cbn in E; congruence].
      destruct B as [B|B]; [|elim B; now apply str_in_iff]. rewrite B in E. cbn in E. congruence.
    + rewrite K in E. rewrite entry_step_ok in E by exact R. rewrite mbind_ok in E. set (e1 := with_state _ _) in *.
      destruct (set_attendees e1 (map (line_entry known) l)) as [[e2 n2] x2] eqn:E2.
      change ((e2, n2, x2) = (e', n, x)) in E. assert (e2 = e' /\ x2 = x) as [-> ->] by (split; congruence).
      destruct (IH e1 e' n2 x E2 N) as (l1 & a & l2 & n1 & -> & B & G & H).
      exists ((j, ps, ro) :: l1), a, l2, n1. split; [reflexivity|]. split; [exact B|]. split.
      * intros b [<-|Hb]; [|auto]. unfold bad_line. cbn [fst snd]. rewrite roles_list. intros [X|X]; [congruence|contradiction].
      * cbn [map line_entry set_attendees].
        change (mbind (set_role e ?a ?b) (fun e1 => set_status_raw e1 ?a ?c)) with (entry_step e a b c).
        rewrite K, entry_step_ok by exact R. rewrite mbind_ok. fold e1. rewrite H. reflexivity.
Qed.

Lemma set_on_object_half cf s c v sp e e' n x : import_spec (cf_tz cf) (source_knows s) (main_attendee s c) v = Ok sp ->
  set_on_object sp e = (e', n, x) -> x <> Ok tt -> half_updated cf s c v e e'.
Proof.
  intros ES E N. pose proof (set_on_object_updated _ _ _ _ _ e ES) as [U O]. pose proof (set_on_object_uid sp e) as UID.
  rewrite E in U, O, UID. unfold mev in U, O, UID. cbn [fst] in U, O, UID.
  destruct (import_spec_says _ _ _ _ _ ES) as (_ & SO & _).
  rewrite set_on_object_eq, (import_spec_entries _ _ _ _ _ ES) in E.
  destruct (set_lines_fail _ _ _ _ _ _ E N) as (l1 & a & l2 & n1 & EL & B & G & H).
  exists l1, a, l2. split; [exact EL|]. split; [exact B|]. split; [exact G|]. split; [exact UID|]. split; [exact U|].
  rewrite O. split; [exact SO|]. destruct (set_lines_ok _ _ _ _ _ H) as [_ H2].
  assert (BB : forall i, dget (e_state (match s_organizer sp with Some i => organize (set_attrs sp e) i | None => with_organizer (set_attrs sp e) None end)) i
     = (if opt_str_eqb (s_organizer sp) (Some i) then Some "ACCEPTED"%string else dget (e_state e) i)
    /\ dget (e_role (match s_organizer sp with Some i => organize (set_attrs sp e) i | None => with_organizer (set_attrs sp e) None end)) i
     = (if opt_str_eqb (s_organizer sp) (Some i) then Some "REQ-PARTICIPANT"%string else dget (e_role e) i)).
  { intros i. destruct (s_organizer sp) as [o|]; [|auto]. rewrite opt_str_eqb_id. cbn. now rewrite !dget_dset. }
  intros i. specialize (H2 i). destruct (BB i) as [B1 B2]. unfold said_status, said_role. cbn [with_lines v_attendees].
  destruct (last_line l1 i) as [[ps ro]|]; [exact H2|]. destruct H2. split; congruence.
Qed.

(** one component that fails *)
Lemma import_one_fails cf s c known v s' n x : store_inv s -> (forall k, In k known -> has_event s k = true) ->
  import_one cf s c known v = (s', n, x) -> (forall u, x <> Ok u) ->
  n = [] /\ (s' = s \/ exists u k, v_uid v = Some u /\ In u known /\ dget (sys_store s) u = Some k
     /\ sys_store s' = sys_store s /\ sys_source s' = sys_source s /\ sys_cals s' = sys_cals s
     /\ (forall j, j <> k -> obj s' j = obj s j) /\ half_updated cf s c v (obj s k) (obj s' k)).
Proof.
  intros I KN. unfold import_one. destruct (v_uid v) as [u|]; [|intros E N; split; [|left]; unfold sfail in E; congruence].
  destruct (str_in u known) eqn:K.
  - apply str_in_iff in K. specialize (KN u K). rewrite has_event_dget in KN. unfold import_existing. rewrite !sbind_slift.
    unfold get_event. destruct (dget (sys_store s) u) as [k|] eqn:D; [|discriminate]. rewrite !sbind_slift.
    destruct (import_spec _ _ _ v) as [sp| |] eqn:ES; [|intros E N; cbn in E; split; [|left]; congruence|intros E N; cbn in E; split; [|left]; congruence].
    rewrite !sbind_slift.
    destruct (will_modify sp (obj s k)) as [[|]| |] eqn:W.
    2:{ intros E N. cbn in E. assert (x = Ok u) by congruence. now elim (N u). }
    2,3: intros E N; cbn in E; split; [|left]; congruence.
    unfold on_event. pose proof (set_on_object_notes sp (obj s k)) as NN. destruct (set_on_object sp (obj s k)) as [[e1 n1] x1] eqn:SO.
    unfold mnotes in NN. cbn [fst snd] in NN. subst n1.
    destruct x1 as [[]|x1|].
    { cbn. intros E N. assert (x = Ok u) by congruence. now elim (N u). }
    + cbn. intros E N. assert (s' = with_heap s (replace_nth k (sys_heap s) e1) /\ n = []) as [-> ->] by (split; congruence). split; [reflexivity|].
      right. exists u, k. split; [reflexivity|]. split; [exact K|]. split; [exact D|]. repeat (split; [reflexivity|]).
      destruct I as [_ I]. destruct (I u k D) as (L & _). split.
      * intros j Hj. rewrite obj_heap, replace_nth_get. destruct (Nat.eqb_spec j k); [contradiction|]. reflexivity.
      * rewrite obj_heap, replace_nth_get, Nat.eqb_refl. apply Nat.ltb_lt in L. rewrite L. cbn [andb].
        eapply set_on_object_half; [exact ES|exact SO|discriminate].
    + cbn. intros E N. assert (s' = with_heap s (replace_nth k (sys_heap s) e1) /\ n = []) as [-> ->] by (split; congruence). split; [reflexivity|].
      right. exists u, k. split; [reflexivity|]. split; [exact K|]. split; [exact D|]. repeat (split; [reflexivity|]).
      destruct I as [_ I]. destruct (I u k D) as (L & _). split.
      * intros j Hj. rewrite obj_heap, replace_nth_get. destruct (Nat.eqb_spec j k); [contradiction|]. reflexivity.
      * rewrite obj_heap, replace_nth_get, Nat.eqb_refl. apply Nat.ltb_lt in L. rewrite L. cbn [andb].
        eapply set_on_object_half; [exact ES|exact SO|discriminate].
  - destruct (has_event s u); [unfold sret; intros E N; assert (x = Ok u) by congruence; now elim (N u)|].
    unfold import_new. rewrite sbind_slift. destruct (import_spec _ _ _ v) as [sp| |]; [|intros E N; cbn in E; split; [|left]; congruence|intros E N; cbn in E; split; [|left]; congruence].
    destruct (create_spec cf s (Some u) sp 0) as [(r & e & -> & _)|(E1 & E2 & E3)].
    { cbn. intros E N. assert (x = Ok u) by congruence. now elim (N u). }
    destruct (create_event cf s (Some u) sp 0) as [[s1 n1] x1]. unfold sst, snt, srs in *. cbn [fst snd] in *. subst s1 n1.
    destruct x1 as [r|x1|]; [now elim (E3 r)| |]; cbn; intros E N; (split; [|left]; congruence).
Qed.

(** the loop stops at the first component that fails *)
Lemma import_loop_stops cf c known vs : forall s s' n x, import_loop cf s c known vs = (s', n, x) -> (forall us, x <> Ok us) ->
  exists pre v post s1 n1 us n2 x2, vs = pre ++ v :: post /\ import_loop cf s c known pre = (s1, n1, Ok us)
  /\ import_one cf s1 c known v = (s', n2, x2) /\ (forall u, x2 <> Ok u) /\ n = n1 ++ n2.
Proof.
  induction vs as [|v vs IH]; intros s s' n x; cbn [import_loop].
  - unfold sret. intros E N. assert (x = Ok []) by congruence. now elim (N []).
  - destruct (import_one cf s c known v) as [[s1 n1] [u|y|]] eqn:E1.
    + rewrite sbind_ok. destruct (import_loop cf s1 c known vs) as [[s2 n2] [us|y|]] eqn:E2; cbn [sbind sret app].
      * intros E N. cbn in E. assert (x = Ok (u :: us)) by congruence. now elim (N (u :: us)).
      * intros E N. assert (s2 = s' /\ n = n1 ++ n2) as [-> ->] by (cbn in E; split; congruence).
        destruct (IH s1 s' n2 _ E2 ltac:(discriminate)) as (pre & w & post & t & m1 & us & m2 & z & -> & A & B & C & ->).
        exists (v :: pre), w, post, t, (n1 ++ m1), (u :: us), m2, z. split; [reflexivity|]. split; [|split; [exact B|split; [exact C|now rewrite app_assoc]]].
        cbn [import_loop]. rewrite E1, sbind_ok, A. cbn. now rewrite !app_nil_r.
      * intros E N. assert (s2 = s' /\ n = n1 ++ n2) as [-> ->] by (cbn in E; split; congruence).
        destruct (IH s1 s' n2 _ E2 ltac:(discriminate)) as (pre & w & post & t & m1 & us & m2 & z & -> & A & B & C & ->).
        exists (v :: pre), w, post, t, (n1 ++ m1), (u :: us), m2, z. split; [reflexivity|]. split; [|split; [exact B|split; [exact C|now rewrite app_assoc]]].
        cbn [import_loop]. rewrite E1, sbind_ok, A. cbn. now rewrite !app_nil_r.
    + cbn. intros E N. exists [], v, vs, s, [], [], n1, (Raise y). split; [reflexivity|]. split; [reflexivity|].
      assert (s1 = s' /\ n = n1) as [-> ->] by (split; congruence). split; [exact E1|]. split; [discriminate|reflexivity].
    + cbn. intros E N. exists [], v, vs, s, [], [], n1, OutOfFuel. split; [reflexivity|]. split; [reflexivity|].
      assert (s1 = s' /\ n = n1) as [-> ->] by (split; congruence). split; [exact E1|]. split; [discriminate|reflexivity].
Qed.

(** * C53: what a failed import leaves behind *)
(** Either nothing at all happened, or the components before the failing one have
    been imported (and nothing deleted), and the failing one did nothing, or
    changed an event the calendar shows up to its first bad ATTENDEE line,
    without a notification. *)
Theorem C53_failed_exact cf s c parsed p cr sync s' n x : reachable cf s ->
  step cf s (OImport c parsed p cr sync) = (s', n, x) -> x <> Ok tt ->
  (s' = s /\ n = [])
  \/ exists vs pre v post s1, parsed = Ok (Some vs) /\ vs = pre ++ v :: post
     /\ step cf s (OImport c (Ok (Some pre)) p cr false) = (s1, n, Ok tt)
     /\ (s' = s1
         \/ exists u k, v_uid v = Some u /\ visible s c p cr u /\ get_event s1 u = Ok k
            /\ sys_store s' = sys_store s1 /\ sys_source s' = sys_source s1 /\ sys_cals s' = sys_cals s1
            /\ (forall j, j <> k -> obj s' j = obj s1 j) /\ half_updated cf s c v (obj s1 k) (obj s' k)).
Proof.
  intros H. apply reachable_store in H. cbn [step]. intros E N.
  destruct (import_cases cf s c parsed p cr sync) as [(evs & vs & E1 & -> & X)|(A & B & _)].
  2:{ left. rewrite E in A, B. auto. }
  right. rewrite E in X. set (known := nodup string_dec (map e_uid evs)) in *.
  assert (KN : forall k, In k known -> has_event s k = true) by (apply (known_stored s c p cr evs H E1)).
  assert (OKL := fun ical => import_loop_ok cf c known vs s ical KN).
  pose proof (import_loop_tracks cf c known vs s H) as (I1 & _).
  assert (F : frame known (import_uids vs) s (sst (import_loop cf s c known vs))) by (apply import_loop_frame; auto).
  destruct (import_loop cf s c known vs) as [[s1 n1] r1] eqn:EL. unfold sst in I1, F. unfold srs in OKL. cbn [fst snd] in I1, F, OKL.
  assert (NR : forall us, r1 <> Ok us).
  { intros us ->. rewrite sbind_ok in X. destruct (OKL us eq_refl) as (-> & _). destruct sync; [|unfold sret in X; cbn in X; congruence].
    destruct (delete_loop_ok (filter (fun u => negb (str_in u (import_uids vs))) known) s1 I1) as (s2 & D & _).
    - apply NoDup_filter. apply NoDup_nodup.
    - intros u Hu. apply filter_In in Hu as [Hu _]. eapply frame_has; [exact F|auto].
    - rewrite D in X. cbn in X. congruence. }
  destruct (import_loop_stops cf c known vs s s1 n1 r1 EL NR) as (pre & v & post & t & m1 & us & m2 & z & -> & A & B & C & ->).
  assert (s1 = s' /\ n = m1 ++ m2) as [-> ->].
  { destruct r1 as [us1| |]; [now elim (NR us1)| |]; cbn in X; split; congruence. }
  pose proof (import_loop_tracks cf c known pre s H) as (It & _). rewrite A in It. unfold sst in It. cbn [fst] in It.
  assert (Ft : frame known (import_uids pre) s t).
  { pose proof (import_loop_frame known (import_uids pre) cf c pre (fun u Hu => Hu) s) as Y. rewrite A in Y. exact Y. }
  assert (KNt : forall k, In k known -> has_event t k = true) by (intros k Hk; eapply frame_has; [exact Ft|auto]).
  destruct (import_one_fails cf t c known v s' m2 z It KNt B C) as [-> Y].
  exists (pre ++ v :: post), pre, v, post, t. split; [reflexivity|]. split; [reflexivity|]. split.
  { unfold import_cal. rewrite sbind_slift, E1, sbind_slift. fold known. rewrite A, sbind_ok. reflexivity. }
  destruct Y as [->|(u & k & Y1 & Y2 & Y3 & Y4 & Y5 & Y6 & Y7 & Y8)]; [now left|].
  right. exists u, k. split; [exact Y1|]. split.
  { unfold known in Y2. apply known_in in Y2 as (e & He & <-). exists evs, e. auto. }
  unfold get_event. rewrite Y3. repeat (split; [assumption || reflexivity|]).
  destruct Ft as (_ & _ & _ & _ & FS & FC). destruct (same_source s t c FS FC) as [SK SM].
  unfold half_updated in *. rewrite SK, SM in Y8. exact Y8.
Qed.
Print Assumptions C53_failed_exact.

(** A new event is imported, then a1 gets its new title and bob's new status
    before zoe's line fails. *)
Example C53_failed_case :
  let vs := [x_event "n1" 732505 "New" [];
    mkV (Some "a1") (Some (IFloat (p_at 732500 9))) None (Some HOUR) (Some "Changed") None None None None
     [("bob", Some "DECLINED", None); ("zoe", None, None); ("ann", Some "DECLINED", None)] [] None None None None;
    x_event "n2" 732505 "Newer" []]%string in
  let m := step cf0 (run cf0 office) (OImport 0 (Ok (Some vs)) (None, None) None true) in
  reachable cf0 (run cf0 office) /\ srs m = Raise AttributeError /\ snt m = [NCreated "n1"%string]
  /\ has_event (sst m) "n1" = true /\ has_event (sst m) "n2" = false
  /\ e_title (obj (sst m) 0) = "Changed"%string
  /\ e_state (obj (sst m) 0) = [("ann", "ACCEPTED"); ("bob", "DECLINED")]%string.
Proof. cbv zeta. split; [apply run_reachable|]. vm_compute. repeat split. Qed.
