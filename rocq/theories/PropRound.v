(** What an import does, exactly and in order (C85); what comes back from an
    export (C47) and what arrives elsewhere (C62), exactly; roles (C63). *)
From Verif Require Import Base PyDate DateFacts Recurrent RecurMisc CalTime TimeProofs Event Storage ICal System
  QueryProofs BlockProofs EventProofs SpecProofs SystemProofs StoreProofs IdProofs ImportProofs PropEvent PropSystem
  ICalProofs ImportContent ImportTwice PropICal PropImport PropRepeat PropCalendar PropExact.
From Coq Require Import ZifyBool.
Ltac Zify.zify_post_hook ::= Z.div_mod_to_equations.
Local Opaque ord2ymd year_of month_of day_of ymd2ord days_in_month is_leap.

(** * C85: the whole effect of an import *)
(** [did v nv]: what one component did, and announced *)
Definition did (cf : config) (s : system) (c : nat) (known : list string) (s' : system) (v : vevent) (nv : list notification) : Prop :=
  exists u r, v_uid v = Some u /\ dget (sys_store s') u = Some r
  /\ ((In u known /\ dget (sys_store s) u = Some r /\ exists sp, import_spec (cf_tz cf) (source_knows s) (main_attendee s c) v = Ok sp
        /\ ((will_modify sp (obj s r) = Ok false /\ obj s' r = obj s r /\ nv = [])
            \/ (will_modify sp (obj s r) = Ok true /\ (exists n, set_on_object sp (obj s r) = (obj s' r, n, Ok tt)) /\ nv = [NModified u])))
      \/ (~ In u known /\ dget (sys_store s) u = None /\ exists sp, import_spec (cf_tz cf) (source_knows s) (main_attendee s c) v = Ok sp
        /\ new_event u sp = Ok (obj s' r) /\ nv = [NCreated u])
      \/ (~ In u known /\ dget (sys_store s) u = Some r /\ obj s' r = obj s r /\ nv = [])).

Lemma import_one_did cf s c known v u : store_inv s -> (forall k, In k known -> has_event s k = true) ->
  srs (import_one cf s c known v) = Ok u ->
  did cf s c known (sst (import_one cf s c known v)) v (snt (import_one cf s c known v)).
Proof.
  intros I KN E0. destruct (import_one_ok cf s c known v u KN E0) as [V _]. revert E0.
  unfold import_one. rewrite V. destruct (str_in u known) eqn:K.
  - apply str_in_iff in K. intros E. apply sbind_inv_ok in E as ([] & E1 & _ & E3 & E4). rewrite E3, E4.
    change (sst (sret (sst (import_existing cf s c u v)) u)) with (sst (import_existing cf s c u v)).
    change (snt (sret (sst (import_existing cf s c u v)) u)) with (@nil notification). rewrite app_nil_r.
    clear E3 E4. revert E1. unfold import_existing. rewrite sbind_slift.
    specialize (KN u K). rewrite has_event_dget in KN. unfold get_event. destruct (dget (sys_store s) u) as [r|] eqn:D; [|discriminate].
    destruct I as [_ I]. destruct (I u r D) as (L & U & _).
    rewrite sbind_slift. destruct (import_spec _ _ _ v) as [sp| |] eqn:ES; try discriminate.
    rewrite sbind_slift. destruct (will_modify sp (obj s r)) as [[|]| |] eqn:W; try discriminate.
    + pose proof (set_on_object_notes sp (obj s r)) as N. pose proof (set_on_object_uid sp (obj s r)) as U'.
      unfold on_event. unfold mnotes, mev in N, U'. destruct (set_on_object sp (obj s r)) as [[e1 n1] r1] eqn:SOO. cbn [fst snd] in N, U'. subst n1.
      intros E1. apply sbind_inv_ok in E1 as ([] & E4 & _ & E5 & E6). rewrite E5, E6.
      assert (R1 : r1 = Ok tt) by exact E4. subst r1. unfold sst, snt. cbn [fst snd app].
      assert (O : obj (with_heap s (replace_nth r (sys_heap s) e1)) r = e1).
      { rewrite obj_heap, replace_nth_get, Nat.eqb_refl. destruct (Nat.ltb_spec r (List.length (sys_heap s))); [reflexivity|lia]. }
      exists u, r. split; [exact V|]. split; [exact D|]. left. split; [exact K|]. split; [exact D|]. exists sp. split; [exact ES|].
      right. split; [exact W|]. rewrite O. split; [exists []; exact SOO|]. congruence.
    + intros _. unfold sst, snt. cbn [sret fst snd]. exists u, r. split; [exact V|]. split; [exact D|]. left. split; [exact K|].
      split; [exact D|]. exists sp. auto.
  - assert (NK : ~ In u known) by (intros X; apply str_in_iff in X; congruence).
    rewrite has_event_dget. destruct (dget (sys_store s) u) as [r|] eqn:D.
    + intros _. unfold sst, snt. cbn [sret fst snd]. exists u, r. split; [exact V|]. split; [exact D|]. right; right. auto.
    + intros E. apply sbind_inv_ok in E as ([] & E1 & _ & E3 & E4). rewrite E3, E4.
      change (sst (sret (sst (import_new cf s c u v)) u)) with (sst (import_new cf s c u v)).
      change (snt (sret (sst (import_new cf s c u v)) u)) with (@nil notification). rewrite app_nil_r.
      clear E3 E4. revert E1. unfold import_new. rewrite sbind_slift. destruct (import_spec _ _ _ v) as [sp| |] eqn:ES; try discriminate.
      intros E1. apply sbind_inv_ok in E1 as (r & E4 & _ & E5 & E6). rewrite E5, E6.
      destruct (create_spec cf s (Some u) sp 0) as [(r' & e & -> & R & NE & _)|(_ & _ & X)]; [|now apply X in E4].
      unfold sst, snt. cbn [sret fst snd Datatypes.app]. exists u, r'. cbn [sys_store]. rewrite dget_dset, String.eqb_refl. split; [exact V|].
      split; [reflexivity|]. right; left. split; [exact NK|]. split; [exact D|]. exists sp. split; [exact ES|].
      assert (OB : obj (mkSys (sys_heap s ++ [e]) (dset (sys_store s) u r') (sys_source s) (sys_cals s)) r' = e).
      { unfold obj. cbn [sys_heap]. rewrite R. rewrite app_nth2 by lia. now rewrite Nat.sub_diag. }
      rewrite OB. auto.
Qed.

Lemma import_loop_did cf c known l : forall s us, store_inv s -> (forall k, In k known -> has_event s k = true) ->
  NoDup (import_uids l) -> srs (import_loop cf s c known l) = Ok us ->
  exists ns, snt (import_loop cf s c known l) = List.concat ns
    /\ Forall2 (did cf s c known (sst (import_loop cf s c known l))) l ns.
Proof.
  induction l as [|w l IH]; intros s us I KN ND E; [exists []; split; [reflexivity|constructor]|]. cbn [import_loop] in *.
  apply sbind_inv_ok in E as (uw & E1 & E2 & E3 & E3'). rewrite E3, E3'. clear E3 E3'.
  pose proof (import_one_did cf s c known w uw I KN E1) as OW.
  destruct (import_one_ok cf s c known w uw KN E1) as [W _].
  pose proof (import_one_frame1 cf s c known w) as F1.
  pose proof (import_one_tracks cf s c known w I) as (I1 & _).
  set (s1 := sst (import_one cf s c known w)) in *.
  apply sbind_inv_ok in E2 as (us' & E4 & _ & E6 & E7). rewrite E6, E7.
  change (sst (sret (sst (import_loop cf s1 c known l)) (uw :: us'))) with (sst (import_loop cf s1 c known l)).
  change (snt (sret (sst (import_loop cf s1 c known l)) (uw :: us'))) with (@nil notification). rewrite app_nil_r. clear E6 E7.
  assert (ND' : ~ In uw (import_uids l) /\ NoDup (import_uids l)).
  { unfold import_uids in ND. cbn [flat_map] in ND. rewrite W in ND. cbn [app] in ND. now inversion ND. }
  destruct ND' as [N1 N2]. unfold import_uids in F1. cbn [flat_map] in F1. rewrite W in F1. cbn [app] in F1.
  pose proof (import_loop_frame1 cf c known l s1) as F2.
  assert (KN1 : forall k, In k known -> has_event s1 k = true).
  { intros k Hk. eapply frame_has; [exact F1|auto]. }
  destruct (IH s1 us' I1 KN1 N2 E4) as (ns & EN & FA). rewrite EN.
  set (s2 := sst (import_loop cf s1 c known l)) in *.
  exists (snt (import_one cf s c known w) :: ns). split; [reflexivity|]. constructor.
  - destruct OW as (u & r & U & D & O). assert (u = uw) by congruence. subst u.
    destruct (frame_other _ _ s1 s2 uw I1 F2 N1 N1) as [G1 G2]. exists uw, r. rewrite G1, (G2 r D). auto.
  - clear EN IH. assert (HU : forall v u, In v l -> v_uid v = Some u -> u <> uw).
    { intros v u Hv V ->. apply N1. unfold import_uids. apply in_flat_map. exists v. rewrite V. split; [exact Hv|now left]. }
    clear E4 ND N1 N2 F2. assert (F1' := F1). destruct F1 as (_ & _ & _ & _ & FS & FC). destruct (same_source s s1 c FS FC) as [SK SM].
    clearbody s2. induction FA as [|v nv l ns O _ IH]; constructor; [|apply IH; intros; eapply HU; [right|]; eassumption]. clear IH.
    destruct O as (u & r & V & D & O). exists u, r. split; [exact V|]. split; [exact D|].
    assert (NI : ~ In u [uw]) by (intros [X|[]]; now apply (HU v u (or_introl eq_refl) V)).
    destruct (frame_other _ _ s s1 u I F1' NI NI) as [G1 G2]. rewrite SK, SM, G1 in O.
    destruct O as [(O1 & O2 & O3)|[O|(O1 & O2 & O3 & O4)]]; [|right; now left|].
    { left. split; [exact O1|]. split; [exact O2|]. rewrite <- (G2 r O2). exact O3. }
    right; right. split; [exact O1|]. split; [exact O2|]. split; [|exact O4]. transitivity (obj s1 r); [exact O3|now apply G2].
Qed.

(** What one component [v] of the text did, and the notifications [nv] it sent,
    with the states before and after the whole import: the event was shown, and
    then it is as setOnObject leaves it if willModify says so and as it was
    otherwise; or there was no such event, and now there is a new one; or it is
    an event not shown, left alone. *)
Definition component (cf : config) (s : system) (c : nat) (p : period) (cr : option criteria) (s' : system)
  (v : vevent) (nv : list notification) : Prop :=
  exists u r, v_uid v = Some u /\ get_event s' u = Ok r
  /\ ((visible s c p cr u /\ get_event s u = Ok r /\ exists sp, import_spec (cf_tz cf) (source_knows s) (main_attendee s c) v = Ok sp
        /\ ((will_modify sp (obj s r) = Ok false /\ obj s' r = obj s r /\ nv = [])
            \/ (will_modify sp (obj s r) = Ok true /\ (exists n, set_on_object sp (obj s r) = (obj s' r, n, Ok tt)) /\ nv = [NModified u])))
      \/ (has_event s u = false /\ exists sp, import_spec (cf_tz cf) (source_knows s) (main_attendee s c) v = Ok sp
        /\ new_event u sp = Ok (obj s' r) /\ nv = [NCreated u])
      \/ (~ visible s c p cr u /\ get_event s u = Ok r /\ obj s' r = obj s r /\ nv = [])).

(** A successful import of a text with distinct ids: the notifications of each
    component in the order of the text, then the deletions. *)
Theorem C85_import_exact cf s c vs p cr sync s' n : reachable cf s -> NoDup (import_uids vs) ->
  step cf s (OImport c (Ok (Some vs)) p cr sync) = (s', n, Ok tt) ->
  exists ns del, n = List.concat ns ++ map NDeleted del /\ Forall2 (component cf s c p cr s') vs ns
    /\ NoDup del /\ forall u, In u del <-> sync = true /\ visible s c p cr u /\ ~ In u (import_uids vs).
Proof.
  intros H ND E. apply reachable_store in H. cbn [step] in E.
  destruct (import_cases cf s c (Ok (Some vs)) p cr sync) as [(evs & vs' & E1 & E2 & EQ)|(_ & _ & ER)].
  2:{ exfalso. apply (ER vs eq_refl). now rewrite E. }
  assert (vs' = vs) by congruence. subst vs'. set (known := nodup string_dec (map e_uid evs)) in *.
  assert (KN : forall k, In k known -> has_event s k = true) by (apply (known_stored s c p cr evs H E1)).
  assert (VIS : forall u, visible s c p cr u <-> In u known).
  { intros u. unfold known. rewrite known_in. split.
    - intros (evs' & e & X & Y & Z). assert (evs' = evs) by congruence. subst. eauto.
    - intros (e & Y & Z). exists evs, e. auto. }
  rewrite EQ in E. pose proof (import_loop_tracks cf c known vs s H) as (I1 & _).
  pose proof (import_loop_frame1 cf c known vs s) as F1.
  pose proof (fun us => import_loop_ok cf c known vs s us KN) as OKL.
  pose proof (fun us => import_loop_did cf c known vs s us H KN ND) as DID.
  destruct (import_loop cf s c known vs) as [[s2 n2] [us|x|]]; [|discriminate E..]. unfold sst, srs, snt in *. cbn [fst snd sbind] in *.
  destruct (OKL us eq_refl) as (-> & _). clear OKL. destruct (DID _ eq_refl) as (ns & -> & FA). clear DID.
  set (del := if sync then filter (fun u => negb (str_in u (import_uids vs))) known else []).
  assert (FIN : n = List.concat ns ++ map NDeleted del /\ sys_heap s' = sys_heap s2
     /\ forall u, In u (import_uids vs) -> dget (sys_store s') u = dget (sys_store s2) u).
  { unfold del. destruct sync.
    - destruct (delete_loop_ok (filter (fun u => negb (str_in u (import_uids vs))) known) s2 I1) as (s3 & D & D1 & D2 & D3 & D4).
      { apply NoDup_filter, NoDup_nodup. }
      { intros u Hu. apply filter_In in Hu as [Hu _]. eapply frame_has; [exact F1|auto]. }
      rewrite D in E. injection E as <- <-. split; [reflexivity|]. split; [exact D1|]. intros u Hu. rewrite D4.
      destruct (str_in u _) eqn:X; [|reflexivity]. apply str_in_iff, filter_In in X as [_ X]. apply str_in_iff in Hu. rewrite Hu in X. discriminate.
    - cbn in E. injection E as <- <-. auto. }
  destruct FIN as (-> & HE & ST). exists ns, del. split; [reflexivity|]. split; [|split].
  - assert (OB : forall r, obj s' r = obj s2 r) by (intros r; unfold obj; now rewrite HE).
    assert (IN : forall v u, In v vs -> v_uid v = Some u -> dget (sys_store s') u = dget (sys_store s2) u).
    { intros v u Hv V. apply ST. unfold import_uids. apply in_flat_map. exists v. rewrite V. split; [exact Hv|now left]. }
    clear - FA VIS OB IN. induction FA as [|v nv vs ns O _ IH]; constructor; [|apply IH; intros; eapply IN; [right|]; eassumption].
    destruct O as (u & r & V & D & O). exists u, r. split; [exact V|]. rewrite has_event_dget. unfold get_event.
    rewrite (IN v u (or_introl eq_refl) V), D. split; [reflexivity|]. rewrite VIS, OB.
    destruct O as [(O1 & -> & O3)|[(O1 & -> & O2)|(O1 & -> & O2)]]; [left; auto|right; left; auto|right; right; auto].
  - unfold del. destruct sync; [|constructor]. apply NoDup_filter, NoDup_nodup.
  - intros u. unfold del. destruct sync.
    + rewrite filter_In, VIS. assert (X : negb (str_in u (import_uids vs)) = true <-> ~ In u (import_uids vs)).
      { rewrite <- str_in_iff. destruct (str_in u (import_uids vs)); cbn; intuition congruence. }
      rewrite X. tauto.
    + cbn. intuition discriminate.
Qed.
Print Assumptions C85_import_exact.

(** who an import of distinct components reports as modified *)
Theorem C85_modified_iff cf s c vs p cr sync s' n v u r sp : reachable cf s -> NoDup (import_uids vs) ->
  step cf s (OImport c (Ok (Some vs)) p cr sync) = (s', n, Ok tt) ->
  In v vs -> v_uid v = Some u -> visible s c p cr u -> get_event s u = Ok r ->
  import_spec (cf_tz cf) (source_knows s) (main_attendee s c) v = Ok sp ->
  (In (NModified u) n <-> will_modify sp (obj s r) = Ok true).
Proof.
  intros H ND E Hv V VIS G IS. destruct (C85_import_exact cf s c vs p cr sync s' n H ND E) as (ns & del & -> & FA & _ & _).
  rewrite in_app_iff, in_concat.
  assert (ND1 : ~ In (NModified u) (map NDeleted del)) by (rewrite in_map_iff; intros (x & X & _); discriminate).
  assert (UN : forall w, In w vs -> v_uid w = Some u -> w = v).
  { clear - ND Hv V. intros w Hw W. unfold import_uids in ND. induction vs as [|x vs IH]; [destruct Hv|]. cbn [flat_map] in ND.
    assert (SUB : NoDup (flat_map (fun v => match v_uid v with Some u => [u] | None => [] end) vs)).
    { destruct (v_uid x); [now inversion ND|exact ND]. }
    assert (NX : forall y, In y vs -> v_uid y = Some u -> v_uid x <> Some u).
    { intros y Hy Y X. rewrite X in ND. inversion ND as [|? ? N _]. apply N. apply in_flat_map. exists y. rewrite Y. split; [exact Hy|now left]. }
    destruct Hv as [->|Hv], Hw as [->|Hw]; try reflexivity.
    - now elim (NX w Hw W).
    - now elim (NX v Hv V).
    - now apply IH. }
  assert (ONE : forall w nv, In w vs -> component cf s c p cr s' w nv -> In (NModified u) nv -> w = v).
  { intros w nv Hw (uw & rw & W & _ & O) N. apply UN; [exact Hw|].
    destruct O as [(_ & _ & sp' & _ & [(_ & _ & ->)|(_ & _ & ->)])|[(_ & sp' & _ & _ & ->)|(_ & _ & _ & ->)]]; cbn in N;
      [destruct N|destruct N as [N|[]]; congruence|destruct N as [N|[]]; discriminate|destruct N]. }
  assert (MINE : forall nv, component cf s c p cr s' v nv -> (In (NModified u) nv <-> will_modify sp (obj s r) = Ok true)).
  { intros nv (uv & rv & W & _ & O). assert (uv = u) by congruence. subst uv.
    destruct O as [(_ & G' & sp' & IS' & O)|[(N & _)|(N & _)]].
    - assert (rv = r) by congruence. assert (sp' = sp) by congruence. subst rv sp'. destruct O as [(Q & _ & ->)|(Q & _ & ->)]; rewrite Q; cbn; intuition congruence.
    - exfalso. unfold has_event in N. rewrite G in N. discriminate.
    - contradiction. }
  clear - FA ND1 ONE MINE Hv. split.
  - intros [(nv & Hn & N)|N]; [|contradiction].
    assert (X : exists w, In w vs /\ component cf s c p cr s' w nv).
    { clear - FA Hn. induction FA as [|w nv' vs ns O _ IH]; [destruct Hn|]. destruct Hn as [->|Hn]; [exists w; split; [now left|exact O]|].
      destruct (IH Hn) as (w' & X & Y). exists w'. split; [now right|exact Y]. }
    destruct X as (w & Hw & O). assert (w = v) by (eapply ONE; eauto). subst w. now apply (MINE nv).
  - intros W. left. assert (X : exists nv, In nv ns /\ component cf s c p cr s' v nv).
    { clear - FA Hv. induction FA as [|w nv' vs ns O _ IH]; [destruct Hv|]. destruct Hv as [->|Hv]; [exists nv'; split; [now left|exact O]|].
      destruct (IH Hv) as (w' & X & Y). exists w'. split; [now right|exact Y]. }
    destruct X as (nv & Hn & O). exists nv. split; [exact Hn|]. now apply (MINE nv).
Qed.
Print Assumptions C85_modified_iff.

(** * C63: roles of an event already shown *)
(** They are those of the lines if the import reports the event as modified, and
    unchanged if not. *)
Theorem C63_existing_role_exact cf s c vs p cr sync s' n v u : reachable cf s -> NoDup (import_uids vs) ->
  step cf s (OImport c (Ok (Some vs)) p cr sync) = (s', n, Ok tt) -> In v vs -> v_uid v = Some u ->
  visible s c p cr u ->
  exists r, get_event s u = Ok r /\ get_event s' u = Ok r
    /\ forall i old, get_role (obj s r) (Some i) = Ok old ->
         (In (NModified u) n -> get_role (obj s' r) (Some i) = Ok (said_role v (get_organizer_id (obj s' r)) old i))
         /\ (~ In (NModified u) n -> get_role (obj s' r) (Some i) = Ok old).
Proof.
  intros H ND E Hv V VIS. destruct (C85_import_exact cf s c vs p cr sync s' n H ND E) as (ns & del & EN & FA & _ & _).
  assert (X : exists nv, In nv ns /\ component cf s c p cr s' v nv).
  { clear - FA Hv. induction FA as [|w nv' vs ns O _ IH]; [destruct Hv|]. destruct Hv as [->|Hv]; [exists nv'; split; [now left|exact O]|].
    destruct (IH Hv) as (w' & X & Y). exists w'. split; [now right|exact Y]. }
  destruct X as (nv & Hn & (u' & r & V' & G' & O)). assert (u' = u) by congruence. subst u'.
  assert (GE : exists r0, get_event s u = Ok r0).
  { destruct VIS as (evs & e & V1 & V2 & V3). destruct (cal_events_known s c p cr evs e (reachable_store cf s H) V1 V2) as (k & D & _).
    exists k. unfold get_event. now rewrite <- V3, D. }
  destruct O as [(_ & G & sp & IS & O)|[(N & _)|(N & _)]]; [|exfalso|contradiction].
  2:{ destruct GE as [k GE]. unfold has_event in N. rewrite GE in N. discriminate. }
  exists r. split; [exact G|]. split; [exact G'|]. intros i old R.
  pose proof (C85_modified_iff cf s c vs p cr sync s' n v u r sp H ND E Hv V VIS G IS) as M.
  destruct O as [(W & OB & _)|(W & (n1 & SO) & _)].
  - split; [intros Y; apply M in Y; congruence|]. intros _. now rewrite OB.
  - split; [|intros Y; elim Y; now apply M]. intros _.
    destruct (set_on_object_parts _ _ _ _ _ _ _ _ IS SO) as (_ & _ & _ & P). unfold get_role, get_organizer_id in *. cbn [attendee_id rbind] in *.
    assert (old = dget (e_role (obj s r)) i) by congruence. subst old. f_equal. apply P.
Qed.
Print Assumptions C63_existing_role_exact.

(** * What becomes of an exported event *)
(** times are cut to whole days for an all-day event and to whole seconds otherwise *)
Definition cut (e : event) (t : Z) : Z := let unit := if e_allday e then DAY else 1000000 in t - t mod unit.

(** an event that can be exported and read back at all *)
Definition workable (e : event) : Prop :=
  (exists d, e_duration e = Some d /\ dt_ok (e_dtstart e + d) = true)
  /\ forall r, e_recurrence e = Some r -> r_kind r <> KBasic /\ r_kind r <> KNo.

(** kind, interval, count and end of a rule survive (the end without fractions of
    a second); exceptions, weekdays and monthly variant do not *)
Definition rule_left (r r' : rule) : Prop :=
  r_kind r' = r_kind r /\ r_interval r' = r_interval r /\ r_count r' = r_count r
  /\ r_until r' = match r_until r with Some (VDatetime t) => Some (VDatetime (t - t mod 1000000)) | x => x end
  /\ r_exceptions r' = [] /\ r_weekdays r' = [] /\ r_monthly r' = "monthday"%string.

(** what is left of the attributes *)
Definition attrs_left (e e' : event) : Prop :=
  e_uid e' = e_uid e /\ e_title e' = e_title e /\ e_description e' = e_description e /\ e_location e' = e_location e
  /\ e_status e' = e_status e /\ e_allday e' = e_allday e /\ e_categories e' = e_categories e
  /\ e_transparent e' = e_transparent e /\ e_access e' = e_access e
  /\ e_document e' = (match e_document e with Some EmptyString => None | x => x end)
  /\ match e_recurrence e with
     | None => e_recurrence e' = None
     | Some r => exists r', e_recurrence e' = Some r' /\ rule_left r r'
     end.

(** an event that loses nothing *)
Definition lossless (e : event) : Prop :=
  (exists d, times_exportable e d) /\ (forall r, e_recurrence e = Some r -> rule_exportable r) /\ e_document e <> Some ""%string.

Lemma exportable_lossless main e : exportable main e <-> lossless e /\ e_organizer e = Some main
  /\ dget (e_state e) main = Some "ACCEPTED"%string /\ dget (e_role e) main = Some "REQ-PARTICIPANT"%string.
Proof. unfold exportable, lossless. tauto. Qed.

Lemma rule_back r rr : import_rule (wire_rule (export_rule r)) = Ok rr -> (r_kind r <> KBasic /\ r_kind r <> KNo) /\ rule_left r rr.
Proof.
  unfold import_rule, wire_rule, export_rule, base_rule, opt_head. cbn [rr_freq rr_interval rr_count rr_until rr_byday].
  assert (W : match r_until r with Some u => Some (wire_until u) | None => None end
    = match r_until r with Some (VDatetime t) => Some (VDatetime (t - t mod 1000000)) | x => x end).
  { destruct (r_until r) as [[u|t|]|]; try reflexivity. cbn. unfold to_second, SECOND. do 2 f_equal. lia. }
  destruct (r_kind r) eqn:K; try (cbn; discriminate).
  all: cbn; intros X; assert (Y : rr = mkRule (r_kind r) (r_interval r) (r_count r) (match r_until r with Some u => Some (wire_until u) | None => None end) [] [] "monthday")
    by (rewrite K; destruct (r_count r); destruct (r_until r); cbn in X; congruence).
  all: rewrite Y, W; split; [split; congruence|]; unfold rule_left; cbn; rewrite ?K; repeat split; reflexivity.
Qed.

Lemma rule_back_total r : r_kind r <> KBasic -> r_kind r <> KNo -> exists rr, import_rule (wire_rule (export_rule r)) = Ok rr.
Proof.
  intros K1 K2. unfold import_rule, wire_rule, export_rule, base_rule, opt_head. cbn [rr_freq rr_interval rr_count rr_until rr_byday].
  destruct (r_kind r) eqn:K; try congruence; cbn; destruct (r_count r); cbn; destruct (r_until r); cbn; eauto.
Qed.

(** the specification read back *)
Definition spec_left (e : event) (sp : spec) : Prop :=
  (exists d, e_duration e = Some d /\ dt_ok (e_dtstart e + d) = true
     /\ s_dtstart sp = cut e (e_dtstart e) /\ s_duration sp = Some (cut e (e_dtstart e + d) - cut e (e_dtstart e)))
  /\ s_title sp = e_title e /\ s_description sp = e_description e /\ s_location sp = e_location e
  /\ s_status sp = e_status e /\ s_allday sp = e_allday e /\ s_categories sp = e_categories e
  /\ s_transparent sp = e_transparent e /\ s_access sp = e_access e
  /\ s_document sp = (match e_document e with Some EmptyString => None | x => x end)
  /\ match e_recurrence e with
     | None => s_recurrence sp = None
     | Some r => (r_kind r <> KBasic /\ r_kind r <> KNo) /\ exists r', s_recurrence sp = Some r' /\ rule_left r r'
     end
  /\ s_attendees sp = [].

Lemma cut_times tz e t : float_time tz (wire_time (if e_allday e then IDate (dt_date t) else IFloat t)) = Ok (cut e t).
Proof.
  unfold cut. destruct (e_allday e); cbn; f_equal; cbv zeta.
  - unfold combine, dt_date, DAY. lia.
  - unfold to_second, SECOND. lia.
Qed.

Lemma spec_back tz kn df e v : export_event false e = Ok v ->
  v_uid v = Some (e_uid e)
  /\ (forall sp, import_spec tz kn df (wire v) = Ok sp -> spec_left e sp /\ df = Ok (s_organizer sp))
  /\ (workable e -> forall o, df = Ok o -> exists sp, import_spec tz kn df (wire v) = Ok sp).
Proof.
  unfold export_event. destruct (e_duration e) as [d|] eqn:D; [|discriminate]. cbn [end_of]. unfold dt_add.
  destruct (dt_ok (e_dtstart e + d)) eqn:OK; [|discriminate]. cbn [rbind]. intros X.
  assert (V := f_equal (fun r => match r with Ok v => v | _ => v end) X). cbn in V. clear X. subst v. split; [reflexivity|].
  unfold import_spec, dtstart_duration, wire.
  cbn [v_dtstart v_dtend v_duration v_organizer v_attendees v_rrule v_summary v_description v_location v_status v_categories v_transp v_class v_attach].
  rewrite !cut_times. cbn [rbind].
  assert (A3 : match match e_recurrence e with Some r => Some (export_rule r) | None => None end with
       | Some rr => Some (wire_rule rr) | None => None end
       = match e_recurrence e with Some r => Some (wire_rule (export_rule r)) | None => None end) by now destruct (e_recurrence e).
  rewrite A3. cbn [map]. rewrite !truthy_dflt. cbn [dflt]. split.
  - intros sp. destruct df as [o| |]; try discriminate. cbn [rbind].
    destruct (match match e_recurrence e with Some r => Some (wire_rule (export_rule r)) | None => None end with
       | None => Ok None | Some rr => let* r := import_rule rr in Ok (Some r) end) as [rec| |] eqn:RR; try discriminate. cbn [rbind].
    intros X. assert (V := f_equal (fun r => match r with Ok v => v | _ => sp end) X). cbn in V. clear X. subst sp. split; [|reflexivity].
    unfold spec_left. cbn. split; [exists d; auto|]. do 4 (split; [reflexivity|]).
    split; [now destruct (e_allday e)|]. split; [reflexivity|]. split; [now destruct (e_transparent e)|]. split; [reflexivity|].
    split; [destruct (e_document e) as [[|a x]|]; reflexivity|]. split; [|reflexivity].
    destruct (e_recurrence e) as [r|]; [|congruence]. destruct (import_rule _) as [rr| |] eqn:IR; try discriminate. cbn in RR.
    assert (rec = Some rr) by congruence. subst rec. destruct (rule_back _ _ IR) as [B1 B2]. split; [exact B1|]. eauto.
  - intros [_ W] o ->. cbn [rbind]. destruct (e_recurrence e) as [r|]; [|cbn; eauto].
    destruct (W r eq_refl) as [W1 W2]. destruct (rule_back_total r W1 W2) as [rr ->]. cbn. eauto.
Qed.

Lemma rule_left_eq r r' : rule_left r r' -> r_kind r <> KBasic /\ r_kind r <> KNo -> (rule_eq r r' = true <-> rule_exportable r).
Proof.
  intros (L1 & L2 & L3 & L4 & L5 & L6 & L7) [K1 K2]. rewrite rule_eq_tuple. unfold tuple_for_comparison, rule_exportable.
  rewrite L1, L2, L3, L4, L5, L6, L7.
  assert (U : r_until r = match r_until r with Some (VDatetime t) => Some (VDatetime (t - t mod 1000000)) | x => x end
    <-> match r_until r with Some (VDatetime t) => t mod SECOND = 0 | _ => True end).
  { destruct (r_until r) as [[u|t|]|]; try tauto. unfold SECOND. split.
    - intros X. assert (Y := f_equal (fun o => match o with Some (VDatetime t) => t | _ => 0 end) X). cbn in Y. lia.
    - intros X. do 2 f_equal. lia. }
  destruct (r_kind r) eqn:K; try congruence.
  all: split.
  all: try (intros X; assert (X1 := f_equal (fun z => fst z) X); assert (X2 := f_equal (fun z => snd z) X); clear X; cbn [fst snd] in X1, X2;
    assert (X3 := f_equal (fun z => snd z) X1); apply (f_equal (fun z => fst z)) in X1; cbn [fst snd] in X1, X3; apply (f_equal (fun z => snd z)) in X1; cbn [snd] in X1;
    (split; [exact X3|]); (split; [first [exact I|congruence]|]); now apply U).
  all: intros (E1 & E2 & E3); apply U in E3; rewrite <- E3, E1, ?E2; reflexivity.
Qed.

Lemma spec_agrees e sp : spec_left e sp -> (attrs_agree sp e <-> lossless e).
Proof.
  intros ((d & D & OK & S1 & S2) & S3 & S4 & S5 & S6 & S7 & S8 & S9 & S10 & S11 & S12 & S13).
  unfold attrs_agree, lossless. rewrite S1, S2, S3, S4, S5, S6, S7, S8, S9, S10, S11.
  assert (T : (e_dtstart e = cut e (e_dtstart e) /\ e_duration e = Some (cut e (e_dtstart e + d) - cut e (e_dtstart e)))
    <-> exists d, times_exportable e d).
  { unfold times_exportable. split.
    - intros [T1 T2]. exists d. split; [exact D|]. split; [exact OK|]. rewrite D in T2.
      assert (T3 := f_equal (fun o => match o with Some x => x | None => 0 end) T2). cbn in T3. unfold cut in *.
      destruct (e_allday e); unfold SECOND, DAY in *; lia.
    - intros (d' & D' & _ & T1). assert (d' = d) by congruence. subst d'. rewrite D. unfold cut.
      destruct (e_allday e); unfold SECOND, DAY in *; (split; [|f_equal]; lia). }
  assert (R : opt_rule_eqb (e_recurrence e) (s_recurrence sp) = true <-> forall r, e_recurrence e = Some r -> rule_exportable r).
  { destruct (e_recurrence e) as [r|].
    - destruct S12 as (K & r' & -> & L). cbn. rewrite (rule_left_eq r r' L K). split; [intros X r0 Y; congruence|intros X; now apply X].
    - rewrite S12. cbn. split; [discriminate|reflexivity]. }
  assert (DD : e_document e = match e_document e with Some EmptyString => None | x => x end <-> e_document e <> Some ""%string).
  { destruct (e_document e) as [[|a x]|]; split; congruence. }
  rewrite R, <- T, <- DD. tauto.
Qed.

(** ** the calls made for a component that comes from an export *)
Lemma spec_modifies e sp : spec_left e sp ->
  (will_modify sp e = Ok false <-> exists main, s_organizer sp = Some main /\ exportable main e)
  /\ ((exists x, will_modify sp e = Raise x) <-> s_organizer sp = None /\ lossless e)
  /\ will_modify sp e <> OutOfFuel.
Proof.
  intros S. pose proof (spec_agrees e sp S) as A. destruct S as (_ & _ & _ & _ & _ & _ & _ & _ & _ & _ & _ & S).
  split; [|split].
  - rewrite C49_no_iff, A, S. split.
    + intros (L & (o & O1 & O2) & _). exists o. split; [exact O1|]. now apply exportable_lossless.
    + intros (o & O1 & O2). apply exportable_lossless in O2 as [L O2]. split; [exact L|]. split; [exists o; auto|constructor].
  - split.
    + intros (x & X). apply C49_raises_iff in X as (_ & X & [Y|(_ & l1 & ro & st & l2 & Z & _)]); [split; [exact Y|now apply A]|].
      rewrite S in Z. destruct l1; discriminate Z.
    + intros [X Y]. exists AttributeError. apply C49_raises_iff. split; [reflexivity|]. split; [now apply A|]. now left.
  - unfold will_modify. destruct (attrs_differ sp e); [discriminate|]. destruct (s_organizer sp) as [o|]; [|discriminate].
    destruct (negb _); [discriminate|]. cbn. destruct (negb _); [discriminate|]. destruct (negb _); [discriminate|]. rewrite S. discriminate.
Qed.

Lemma spec_sets e sp e0 : spec_left e sp -> exists e', set_on_object sp e0 = (e', [], Ok tt).
Proof. intros (_ & _ & _ & _ & _ & _ & _ & _ & _ & _ & _ & S). rewrite set_on_object_eq, S. eexists. reflexivity. Qed.

(** ** the whole calendar *)
Lemma exports s c p cr evs vs : cal_events s c p cr = Ok evs -> export_cal s c p cr = Ok vs ->
  Forall2 (fun e v => export_event false e = Ok v) evs vs /\ import_uids (map wire vs) = map e_uid evs.
Proof.
  intros E X. unfold export_cal in X. rewrite E in X. cbn [rbind] in X. apply rmap_forall2 in X. split; [exact X|].
  clear E. induction X as [|e v l l' Hx _ IH]; [reflexivity|]. unfold import_uids in *. cbn [map flat_map].
  change (v_uid (wire v)) with (v_uid v). destruct (spec_back (fun _ => 0) (fun _ => true) (Ok None) e v Hx) as (-> & _). rewrite IH. reflexivity.
Qed.

Lemma exports_total s c p cr evs : cal_events s c p cr = Ok evs -> Forall workable evs -> exists vs, export_cal s c p cr = Ok vs.
Proof.
  intros E W. unfold export_cal. rewrite E. cbn [rbind]. clear E. induction W as [|e evs [(d & D & OK) _] _ (vs & IH)]; [exists []; reflexivity|].
  cbn. unfold export_event at 1. rewrite D. cbn [end_of]. unfold dt_add. rewrite OK. cbn [rbind]. rewrite IH. cbn. eauto.
Qed.

Lemma forall2_in {A B} (P : A -> B -> Prop) l l' : Forall2 P l l' -> (forall x, In x l -> exists y, In y l' /\ P x y) /\ (forall y, In y l' -> exists x, In x l /\ P x y).
Proof.
  induction 1 as [|x y l l' H _ (I1 & I2)]; [split; intros z []|]. split.
  - intros z [<-|Hz]; [exists y; split; [now left|exact H]|]. destruct (I1 z Hz) as (w & W1 & W2). exists w. split; [now right|exact W2].
  - intros z [<-|Hz]; [exists x; split; [now left|exact H]|]. destruct (I2 z Hz) as (w & W1 & W2). exists w. split; [now right|exact W2].
Qed.

Lemma loop_succeeds cf c known vs : forall s, store_inv s -> (forall k, In k known -> has_event s k = true) -> NoDup (import_uids vs) ->
  (forall v, In v vs -> exists u r sp b, v_uid v = Some u /\ In u known /\ dget (sys_store s) u = Some r
     /\ import_spec (cf_tz cf) (source_knows s) (main_attendee s c) v = Ok sp /\ will_modify sp (obj s r) = Ok b
     /\ exists e', set_on_object sp (obj s r) = (e', [], Ok tt)) ->
  exists us, srs (import_loop cf s c known vs) = Ok us.
Proof.
  induction vs as [|w vs IH]; intros s I KN ND H; [eexists; reflexivity|]. cbn [import_loop].
  assert (ONE : exists u, v_uid w = Some u /\ srs (import_one cf s c known w) = Ok u).
  { destruct (H w (or_introl eq_refl)) as (u & r & sp & b & V & K & D & IS & W & e' & SO). exists u. split; [exact V|].
    unfold import_one. rewrite V. apply str_in_iff in K. rewrite K. unfold import_existing, get_event. rewrite D, sbind_slift, sbind_slift, IS, sbind_slift, W.
    destruct b; [|reflexivity]. unfold on_event. rewrite SO. reflexivity. }
  destruct ONE as (uw & W & E1).
  pose proof (import_one_frame1 cf s c known w) as F1. pose proof (import_one_tracks cf s c known w I) as (I1 & _).
  set (s1 := sst (import_one cf s c known w)) in *.
  assert (ND' : ~ In uw (import_uids vs) /\ NoDup (import_uids vs)).
  { unfold import_uids in ND. cbn [flat_map] in ND. rewrite W in ND. cbn [app] in ND. now inversion ND. }
  destruct ND' as [N1 N2]. unfold import_uids in F1. cbn [flat_map] in F1. rewrite W in F1. cbn [app] in F1.
  assert (KN1 : forall k, In k known -> has_event s1 k = true) by (intros k Hk; eapply frame_has; [exact F1|auto]).
  destruct (IH s1 I1 KN1 N2) as (us & E2).
  - intros v Hv. destruct (H v (or_intror Hv)) as (u & r & sp & b & V & K & D & IS & WM & SO).
    assert (NI : ~ In u [uw]).
    { intros [<-|[]]. apply N1. unfold import_uids. apply in_flat_map. exists v. rewrite V. split; [exact Hv|now left]. }
    destruct (frame_other _ _ s s1 u I F1 NI NI) as [G1 G2]. destruct F1 as (_ & _ & _ & _ & FS & FC). destruct (same_source s s1 c FS FC) as [SK SM].
    exists u, r, sp, b. rewrite SK, SM, G1, (G2 r D). do 5 (split; [assumption|]). exact SO.
  - exists (uw :: us). unfold s1, sst in E2. destruct (import_one cf s c known w) as [[s2 n2] r2]. unfold srs in *. cbn [fst snd] in *. subst r2. cbn [sbind].
    destruct (import_loop cf s2 c known vs) as [[s3 n3] r3]. cbn [snd] in E2. subst r3. reflexivity.
Qed.

Lemma loop_then_import cf s c vs p cr sync evs us : store_inv s -> cal_events s c p cr = Ok evs ->
  srs (import_loop cf s c (nodup string_dec (map e_uid evs)) vs) = Ok us ->
  srs (import_cal cf s c (Ok (Some vs)) p cr sync) = Ok tt.
Proof.
  intros I E L. set (known := nodup string_dec (map e_uid evs)) in *. unfold import_cal. rewrite sbind_slift, E, sbind_slift. fold known.
  assert (KN : forall k, In k known -> has_event s k = true) by (apply (known_stored s c p cr evs I E)).
  pose proof (import_loop_tracks cf c known vs s I) as (I1 & _). pose proof (import_loop_frame1 cf c known vs s) as F1.
  destruct (import_loop cf s c known vs) as [[s2 n2] r2]. unfold srs, sst in *. cbn [fst snd] in *. subst r2. cbn [sbind].
  destruct sync; [|reflexivity].
  destruct (delete_loop_ok (filter (fun u => negb (str_in u us)) known) s2 I1) as (s3 & D & _).
  { apply NoDup_filter, NoDup_nodup. }
  { intros u Hu. apply filter_In in Hu as [Hu _]. eapply frame_has; [exact F1|auto]. }
  rewrite D. reflexivity.
Qed.

(** * C47: when exporting a calendar and importing the result works, and what it does *)
(** It works exactly if every event shown is [workable] and, in a calendar
    without attendees, none would come back unchanged. *)
Theorem C47_works_iff cf s c p cr sync evs : reachable cf s -> cal_events s c p cr = Ok evs ->
  ((exists vs, export_cal s c p cr = Ok vs /\ srs (step cf s (OImport c (Ok (Some (map wire vs))) p cr sync)) = Ok tt)
   <-> Forall workable evs
       /\ (evs = [] \/ exists o, main_attendee s c = Ok o /\ (o = None -> Forall (fun e => ~ lossless e) evs))).
Proof.
  intros H E. pose proof (reachable_store cf s H) as I. cbn [step]. split.
  - intros (vs & EX & R). destruct (exports s c p cr evs vs E EX) as [FA U].
    assert (ND : NoDup (import_uids (map wire vs))) by (rewrite U; now apply (cal_events_nodup s c p cr)).
    destruct (step cf s (OImport c (Ok (Some (map wire vs))) p cr sync)) as [[s' n] x] eqn:ST. cbn [step] in ST. rewrite ST in R.
    unfold srs in R. cbn [snd] in R. subst x.
    destruct (C85_import_exact cf s c (map wire vs) p cr sync s' n H ND ST) as (ns & _ & _ & FC & _).
    destruct (forall2_in _ _ _ FA) as [FA1 _]. destruct (forall2_in _ _ _ FC) as [FC1 _].
    assert (EACH : forall e, In e evs -> exists sp, spec_left e sp /\ main_attendee s c = Ok (s_organizer sp) /\ exists b, will_modify sp e = Ok b).
    { intros e He. destruct (FA1 e He) as (v & Hv & X). destruct (FC1 (wire v) (in_map wire _ _ Hv)) as (nv & _ & (u & r & V & _ & O)).
      destruct (spec_back (cf_tz cf) (source_knows s) (main_attendee s c) e v X) as (V' & B & _). change (v_uid (wire v)) with (v_uid v) in V.
      assert (u = e_uid e) by congruence. subst u.
      destruct (cal_events_known s c p cr evs e I E He) as (k & D & EK).
      destruct O as [(_ & G & sp & IS & O)|[(N & _)|(N & _)]].
      - destruct (B sp IS) as [B1 B2]. exists sp. split; [exact B1|]. split; [exact B2|].
        unfold get_event in G. rewrite D in G. assert (r = k) by congruence. subst r. rewrite EK.
        destruct O as [(O & _)|(O & _)]; eauto.
      - rewrite has_event_dget, D in N. discriminate.
      - exfalso. apply N. exists evs, e. auto. }
    split.
    + apply Forall_forall. intros e He. destruct (EACH e He) as (sp & ((d & D1 & D2 & _) & _ & _ & _ & _ & _ & _ & _ & _ & _ & RR & _) & _).
      split; [eauto|]. intros r Hr. rewrite Hr in RR. apply RR.
    + destruct evs as [|e0 evs0] eqn:EE; [now left|right]. rewrite <- EE in *.
      destruct (EACH e0) as (sp0 & _ & M & _); [rewrite EE; now left|]. exists (s_organizer sp0). split; [exact M|]. intros NO.
      apply Forall_forall. intros e He L. destruct (EACH e He) as (sp & S & M' & b & W).
      destruct (spec_modifies e sp S) as (_ & [_ X] & _). destruct X as [x X]; [split; [congruence|exact L]|]. congruence.
  - intros [W O]. destruct (exports_total s c p cr evs E W) as (vs & EX). exists vs. split; [exact EX|].
    destruct (exports s c p cr evs vs E EX) as [FA U].
    destruct O as [->|(o & M & O)].
    { inversion FA. subst vs. eapply loop_then_import; [exact I|exact E|reflexivity]. }
    destruct (loop_succeeds cf c (nodup string_dec (map e_uid evs)) (map wire vs) s I) as (us & L).
    + apply (known_stored s c p cr evs I E).
    + rewrite U. now apply (cal_events_nodup s c p cr).
    + intros w Hw. apply in_map_iff in Hw as (v & <- & Hv). destruct (forall2_in _ _ _ FA) as [_ FA2]. destruct (FA2 v Hv) as (e & He & X).
      destruct (spec_back (cf_tz cf) (source_knows s) (main_attendee s c) e v X) as (V & B & T).
      destruct (T (proj1 (Forall_forall _ _) W e He) o M) as (sp & IS). destruct (B sp IS) as [S B2].
      destruct (cal_events_known s c p cr evs e I E He) as (k & D & EK).
      destruct (spec_modifies e sp S) as (_ & X1 & X2). destruct (spec_sets e sp e S) as (e' & SO). rewrite EK in X1, X2, SO.
      destruct (will_modify sp (obj s k)) as [b|x|] eqn:WM; [|exfalso|congruence].
      * exists (e_uid e), k, sp, b. split; [exact V|]. split; [apply known_in; eauto|]. split; [exact D|]. split; [exact IS|]. split; [exact WM|]. eauto.
      * assert (Y : exists x', Raise x = (Raise x' : res bool)) by eauto. apply X1 in Y as [Y1 Y2]. rewrite <- EK in Y2.
        assert (o = None) by congruence. now apply (proj1 (Forall_forall _ _) (O H0) e He).
    + eapply loop_then_import; eauto.
Qed.
Print Assumptions C47_works_iff.

(** [e'] is what is left of [e], organized by [o] and otherwise with the same participants *)
Definition came_back (o : attendee) (e e' : event) : Prop :=
  attrs_left e e'
  /\ (exists d, e_duration e = Some d /\ e_dtstart e' = cut e (e_dtstart e)
        /\ e_duration e' = Some (cut e (e_dtstart e + d) - cut e (e_dtstart e)))
  /\ e_organizer e' = o
  /\ forall i, (o = Some i -> dget (e_state e') i = Some "ACCEPTED"%string /\ dget (e_role e') i = Some "REQ-PARTICIPANT"%string)
            /\ (o <> Some i -> dget (e_state e') i = dget (e_state e) i /\ dget (e_role e') i = dget (e_role e) i).

Lemma spec_left_attrs e sp e0 e' n : spec_left e sp -> set_on_object sp e0 = (e', n, Ok tt) -> e_uid e0 = e_uid e ->
  attrs_left e e' /\ e_dtstart e' = s_dtstart sp /\ e_duration e' = s_duration sp /\ e_organizer e' = s_organizer sp
  /\ forall i, (s_organizer sp = Some i -> dget (e_state e') i = Some "ACCEPTED"%string /\ dget (e_role e') i = Some "REQ-PARTICIPANT"%string)
            /\ (s_organizer sp <> Some i -> dget (e_state e') i = dget (e_state e0) i /\ dget (e_role e') i = dget (e_role e0) i).
Proof.
  intros (_ & S3 & S4 & S5 & S6 & S7 & S8 & S9 & S10 & S11 & S12 & S13) SO U.
  destruct (set_on_object_attrs sp e0) as (A0 & A1 & A2 & A3 & A4 & A5 & A6 & A7 & A8 & A9 & A10 & A11 & A12 & A13).
  rewrite SO in A0, A1, A2, A3, A4, A5, A6, A7, A8, A9, A10, A11, A12, A13. unfold mev in *. cbn [fst] in *. rename SO into SO'.
  split; [|split; [exact A1|split; [exact A2|split; [exact A13|]]]].
  - unfold attrs_left. do 10 (split; [congruence|]). rewrite A7. destruct (e_recurrence e); [apply S12|exact S12].
  - intros i. rewrite set_on_object_eq, S13 in SO'. cbn [set_attendees] in SO'. injection SO' as <- _.
    destruct (s_organizer sp) as [o|]; cbn; [|split; [discriminate|auto]]. rewrite !dget_dset. split; intros X.
    + injection X as ->. rewrite String.eqb_refl. auto.
    + destruct (String.eqb_spec i o) as [->|]; [congruence|auto].
Qed.

(** What it does: exactly the events that are not [exportable] change, each is
    reported once, and this is what is left of them. *)
Theorem C47_reimport_exact cf s c p cr sync evs vs s' n : reachable cf s -> cal_events s c p cr = Ok evs -> export_cal s c p cr = Ok vs ->
  step cf s (OImport c (Ok (Some (map wire vs))) p cr sync) = (s', n, Ok tt) ->
  exists changed, n = map NModified changed /\ NoDup changed
  /\ (forall u, In u changed <-> exists e, In e evs /\ e_uid e = u /\ forall main, main_attendee s c = Ok (Some main) -> ~ exportable main e)
  /\ forall e, In e evs -> exists r o, get_event s (e_uid e) = Ok r /\ e = obj s r /\ get_event s' (e_uid e) = Ok r /\ main_attendee s c = Ok o
       /\ (In (e_uid e) changed -> came_back o e (obj s' r)) /\ (~ In (e_uid e) changed -> obj s' r = e /\ exists main, o = Some main /\ exportable main e).
Proof.
  intros H E EX ST. pose proof (reachable_store cf s H) as I. destruct (exports s c p cr evs vs E EX) as [FA U].
  assert (ND : NoDup (import_uids (map wire vs))) by (rewrite U; now apply (cal_events_nodup s c p cr)).
  destruct (C85_import_exact cf s c (map wire vs) p cr sync s' n H ND ST) as (ns & del & EN & FC & _ & DEL).
  assert (D0 : del = []).
  { destruct del as [|u l]; [reflexivity|]. exfalso. destruct (DEL u) as [DD _]. destruct DD as (_ & (evs' & e & X & Y & Z) & N); [now left|].
    apply N. rewrite U. assert (evs' = evs) by congruence. subst evs'. apply in_map_iff. eauto. }
  subst del. cbn [map] in EN. rewrite app_nil_r in EN. subst n.
  assert (NDU : NoDup (map e_uid evs)) by now apply (cal_events_nodup s c p cr).
  assert (KNOWN : forall e, In e evs -> visible s c p cr (e_uid e) /\ exists r, get_event s (e_uid e) = Ok r /\ e = obj s r).
  { intros e He. split; [exists evs, e; auto|]. destruct (cal_events_known s c p cr evs e I E He) as (r & D & X). exists r. unfold get_event. now rewrite D. }
  clear ND U E EX DEL ST I.
  assert (GEN : forall es ws ms, Forall2 (fun e v => export_event false e = Ok v) es ws -> Forall2 (component cf s c p cr s') (map wire ws) ms ->
     NoDup (map e_uid es) -> (forall e, In e es -> visible s c p cr (e_uid e) /\ exists r, get_event s (e_uid e) = Ok r /\ e = obj s r) ->
     exists changed, List.concat ms = map NModified changed /\ NoDup changed
     /\ (forall u, In u changed <-> exists e, In e es /\ e_uid e = u /\ forall main, main_attendee s c = Ok (Some main) -> ~ exportable main e)
     /\ forall e, In e es -> exists r o, get_event s (e_uid e) = Ok r /\ e = obj s r /\ get_event s' (e_uid e) = Ok r /\ main_attendee s c = Ok o
       /\ (In (e_uid e) changed -> came_back o e (obj s' r)) /\ (~ In (e_uid e) changed -> obj s' r = e /\ exists main, o = Some main /\ exportable main e)).
  2:{ exact (GEN evs vs ns FA FC NDU KNOWN). }
  clear. intros es ws ms FA. revert ms. induction FA as [|e v es ws X FA IH]; intros ms FC ND KN.
  { inversion FC. exists []. split; [reflexivity|]. split; [constructor|]. split; [|intros e []]. intros u. split; [intros []|intros (e & [] & _)]. }
  cbn [map] in FC, ND. inversion FC as [|w nv l1 l2 CO FC' EQ1 EQ2]. subst w l1 ms. inversion ND as [|u l NI ND' EQ1]. subst u l.
  destruct (IH l2 FC' ND' (fun e' He' => KN e' (or_intror He'))) as (ch & C1 & C2 & C3 & C4). clear IH.
  destruct (KN e (or_introl eq_refl)) as (VIS & r & G & OB).
  destruct CO as (u & r' & V & G' & O). change (v_uid (wire v)) with (v_uid v) in V.
  destruct (spec_back (cf_tz cf) (source_knows s) (main_attendee s c) e v X) as (V' & B & _). assert (u = e_uid e) by congruence. subst u.
  destruct O as [(_ & G2 & sp & IS & O)|[(N & _)|(N & _)]].
  2:{ exfalso. unfold has_event in N. rewrite G in N. discriminate. }
  2:{ contradiction. }
  assert (r' = r) by congruence. subst r'. destruct (B sp IS) as [S M]. rewrite <- OB in O. destruct (spec_modifies e sp S) as (SM & _).
  assert (NCH : ~ In (e_uid e) ch).
  { intros Y. apply C3 in Y as (e' & He' & U' & _). apply NI. apply in_map_iff. eauto. }
  destruct O as [(W & O & ->)|(W & (n1 & SO) & ->)].
  - exists ch. split; [exact C1|]. split; [exact C2|]. apply SM in W as (main & M1 & M2). split.
    + intros u. rewrite C3. split; intros (e' & He' & Q); [exists e'; split; [now right|exact Q]|].
      destruct He' as [<-|He']; [|eauto]. exfalso. destruct Q as [_ Q]. apply (Q main); [rewrite M, M1; reflexivity|exact M2].
    + intros e' [<-|He']; [|now apply C4]. exists r, (s_organizer sp). do 4 (split; [assumption|]). split; [contradiction|eauto].
  - exists (e_uid e :: ch). split; [cbn; now rewrite C1|]. split; [now constructor|]. split.
    + intros u. cbn [In]. rewrite C3. split.
      * intros [<-|(e' & He' & Q)]; [|exists e'; split; [now right|exact Q]]. exists e. split; [now left|]. split; [reflexivity|].
        intros main M1 M2. assert (Y : will_modify sp e = Ok false); [|congruence]. apply SM. exists main. split; [rewrite M in M1; injection M1 as M1; exact M1|exact M2].
      * intros (e' & [<-|He'] & Q); [left; apply Q|right; eauto].
    + intros e' [<-|He'].
      * exists r, (s_organizer sp). do 4 (split; [assumption|]). split; [|intros Q; elim Q; now left]. intros _.
        destruct (spec_left_attrs e sp e (obj s' r) n1 S SO eq_refl) as (A1 & A2 & A3 & A4 & A5).
        split; [exact A1|]. split; [|split; assumption]. destruct S as ((d & D & _ & S1 & S2) & _). exists d. split; [exact D|]. split; congruence.
      * destruct (C4 e' He') as (k & o & Q1 & Q2 & Q3 & Q4 & Q5 & Q6). exists k, o. do 4 (split; [assumption|]).
        assert (NE : e_uid e' <> e_uid e) by (intros Y; apply NI; rewrite <- Y; now apply in_map).
        split; [intros [Y|Y]; [congruence|now apply Q5]|intros Y; apply Q6; intros Z; apply Y; now right].
Qed.
Print Assumptions C47_reimport_exact.

Lemma came_back_same o e : workable e -> came_back o e e -> lossless e.
Proof.
  intros [(d' & D' & OK) WK] ((A0 & A1 & A2 & A3 & A4 & A5 & A6 & A7 & A8 & A9 & A10) & (d & D & T1 & T2) & O & P).
  assert (d' = d) by congruence. subst d'. split; [|split].
  - exists d. split; [exact D|]. split; [exact OK|]. rewrite D in T2. assert (T3 := f_equal (fun o => match o with Some x => x | None => 0 end) T2).
    cbn in T3. unfold cut in *. destruct (e_allday e); unfold SECOND, DAY in *; lia.
  - intros rr RR. rewrite RR in A10. destruct A10 as (r2 & R2 & L). assert (r2 = rr) by congruence. subst r2.
    apply (rule_left_eq rr rr L); [now apply WK|]. apply rule_eq_tuple. reflexivity.
  - intros X. rewrite X in A9. discriminate.
Qed.

(** The full claim, and exactly when it holds: nothing changes at all. *)
Theorem C47_roundtrip_iff cf s c p cr sync evs : reachable cf s -> cal_events s c p cr = Ok evs ->
  ((exists vs n, export_cal s c p cr = Ok vs /\ step cf s (OImport c (Ok (Some (map wire vs))) p cr sync) = (s, n, Ok tt))
   <-> evs = [] \/ exists main, main_attendee s c = Ok (Some main) /\ Forall (exportable main) evs).
Proof.
  intros H E. split.
  - intros (vs & n & EX & ST). destruct (C47_reimport_exact cf s c p cr sync evs vs s n H E EX ST) as (ch & _ & _ & _ & C4).
    destruct (proj1 (C47_works_iff cf s c p cr sync evs H E)) as [WI WO]; [exists vs; split; [exact EX|rewrite ST; reflexivity]|].
    assert (EACH : forall e, In e evs -> exists main, main_attendee s c = Ok (Some main) /\ exportable main e).
    { intros e He. destruct (C4 e He) as (r & o & G & OB & _ & M & CB & CN).
      destruct (in_dec string_dec (e_uid e) ch) as [IN|NI].
      - specialize (CB IN). rewrite <- OB in CB. pose proof (proj1 (Forall_forall _ _) WI e He) as W. pose proof (came_back_same o e W CB) as L.
        destruct o as [o|].
        + exists o. split; [exact M|]. destruct CB as (_ & _ & O & P). destruct (P o) as [P1 _]. destruct (P1 eq_refl) as [P2 P3].
          apply exportable_lossless. auto.
        + exfalso. destruct WO as [WO|(o & M' & NL)]; [subst evs; destruct He|]. assert (N : o = None) by congruence.
          now apply (proj1 (Forall_forall _ _) (NL N) e He).
      - destruct (CN NI) as (_ & main & -> & X). eauto. }
    destruct evs as [|e0 evs0] eqn:EE; [now left|right]. rewrite <- EE in *. destruct (EACH e0) as (main & M & _); [rewrite EE; now left|].
    exists main. split; [exact M|]. apply Forall_forall. intros e He. destruct (EACH e He) as (main' & M' & X). congruence.
  - intros [->|(main & M & F)].
    + exists [], []. unfold export_cal. rewrite E. split; [reflexivity|]. cbn [step map]. unfold import_cal. rewrite sbind_slift, E, sbind_slift.
      destruct sync; reflexivity.
    + destruct (C47_roundtrip_partial cf s c p cr main evs H M E F) as (vs & EX & ST). exists vs, []. split; [exact EX|apply ST].
Qed.
Print Assumptions C47_roundtrip_iff.

(** * C62: what arrives in another store *)
(** [e'] is what arrives for [e] where it was not known: what is left of the
    attributes, an all-day event that lasts no whole day made to last one, and no
    participant but the organizer *)
Definition arrived (o : attendee) (e e' : event) : Prop :=
  attrs_left e e'
  /\ (exists d, e_duration e = Some d /\ e_dtstart e' = cut e (e_dtstart e)
        /\ let left := cut e (e_dtstart e + d) - cut e (e_dtstart e) in
           e_duration e' = Some (if e_allday e then if left =? 0 then DAY else left else left))
  /\ e_organizer e' = o
  /\ forall i, get_status e' (Some i) = Ok (if opt_str_eqb o (Some i) then Some "ACCEPTED"%string else None)
            /\ get_role e' (Some i) = Ok (if opt_str_eqb o (Some i) then Some "REQ-PARTICIPANT"%string else None).

Theorem C62_arrives_exact cf1 s1 c1 p1 cr1 evs vs cf2 s2 c2 p2 cr2 sync s2' n :
  reachable cf1 s1 -> reachable cf2 s2 -> cal_events s1 c1 p1 cr1 = Ok evs -> export_cal s1 c1 p1 cr1 = Ok vs ->
  step cf2 s2 (OImport c2 (Ok (Some (map wire vs))) p2 cr2 sync) = (s2', n, Ok tt) ->
  forall e, In e evs -> has_event s2 (e_uid e) = false ->
  exists r o, get_event s2' (e_uid e) = Ok r /\ main_attendee s2 c2 = Ok o /\ arrived o e (obj s2' r) /\ workable e /\ In (NCreated (e_uid e)) n.
Proof.
  intros H1 H2 E EX ST e He NEW. destruct (exports s1 c1 p1 cr1 evs vs E EX) as [FA U].
  assert (ND : NoDup (import_uids (map wire vs))) by (rewrite U; apply (cal_events_nodup s1 c1 p1 cr1); [now apply (reachable_store cf1)|exact E]).
  destruct (C85_import_exact cf2 s2 c2 (map wire vs) p2 cr2 sync s2' n H2 ND ST) as (ns & del & EN & FC & _).
  destruct (forall2_in _ _ _ FA) as [FA1 _]. destruct (forall2_in _ _ _ FC) as [FC1 _].
  destruct (FA1 e He) as (v & Hv & X). destruct (FC1 (wire v) (in_map wire _ _ Hv)) as (nv & Hnv & (u & r & V & G & O)).
  destruct (spec_back (cf_tz cf2) (source_knows s2) (main_attendee s2 c2) e v X) as (V' & B & _). change (v_uid (wire v)) with (v_uid v) in V.
  assert (u = e_uid e) by congruence. subst u. unfold has_event in NEW.
  destruct O as [(_ & G0 & _)|[(_ & sp & IS & NE & NV)|(_ & G0 & _)]]; [rewrite G0 in NEW; discriminate| |rewrite G0 in NEW; discriminate].
  destruct (B sp IS) as [S M]. exists r, (s_organizer sp). split; [exact G|]. split; [exact M|]. split.
  2:{ split.
      { destruct S as ((d & D1 & D2 & _) & _ & _ & _ & _ & _ & _ & _ & _ & _ & RR & _). split; [eauto|]. intros rr Hr. rewrite Hr in RR. apply RR. }
      rewrite EN. apply in_or_app. left. apply in_concat. exists nv. split; [exact Hnv|]. rewrite NV. now left. }
  destruct (new_event_eq _ _ _ NE) as (e0 & n0 & SO & EQ). rewrite EQ.
  destruct (spec_left_attrs e sp (blank (e_uid e)) e0 n0 S SO eq_refl) as (A1 & A2 & A3 & A4 & A5).
  destruct S as ((d & D & _ & S1 & S2) & _ & _ & _ & _ & SA & _). set (lft := cut e (e_dtstart e + d) - cut e (e_dtstart e)) in *.
  assert (PARTS : forall i, dget (e_state e0) i = (if opt_str_eqb (s_organizer sp) (Some i) then Some "ACCEPTED"%string else None)
     /\ dget (e_role e0) i = (if opt_str_eqb (s_organizer sp) (Some i) then Some "REQ-PARTICIPANT"%string else None)).
  { intros i. destruct (A5 i) as [P1 P2]. destruct (opt_str_eqb (s_organizer sp) (Some i)) eqn:Q.
    - apply opt_str_eqb_eq in Q. now apply P1.
    - apply P2. intros Y. apply opt_str_eqb_eq in Y. congruence. }
  rewrite SA. unfold arrived. destruct (e_allday e) eqn:AD.
  - destruct (allday_rest e0) as (R0 & R1 & R2 & R3 & R4 & R5 & R6 & R7 & R8 & R9 & R10 & R11 & R12 & R13).
    unfold attrs_left in *. rewrite R0, R1, R2, R3, R4, R5, R6, R7, R8, R9, R10, R11. split; [exact A1|]. split; [|split; [exact A4|]].
    + exists d. split; [exact D|]. unfold allday_adjust. rewrite A3, S2, A2, S1. unfold with_time. cbn.
      assert (LD : lft mod DAY = 0).
      { unfold lft, cut. rewrite AD. unfold DAY. lia. }
      split; [unfold combine, dt_date, cut; rewrite AD; unfold DAY; lia|]. f_equal. unfold td_days. fold lft. clearbody lft.
      destruct (Z.eqb_spec lft 0) as [->|NZ]; [reflexivity|].
      assert (Q : lft - lft / DAY * DAY = 0) by (unfold DAY in *; lia). rewrite Q. cbn.
      destruct (Z.eqb_spec (lft / DAY) 0); unfold DAY in *; lia.
    + intros i. unfold get_status, get_role. cbn [attendee_id rbind]. rewrite R12, R13. destruct (PARTS i) as [-> ->]. auto.
  - split; [exact A1|]. split; [|split; [exact A4|]].
    + exists d. split; [exact D|]. split; [now rewrite A2|]. cbv zeta. fold lft. now rewrite A3.
    + intros i. unfold get_status, get_role. cbn [attendee_id rbind]. destruct (PARTS i) as [-> ->]. auto.
Qed.
Print Assumptions C62_arrives_exact.

(** The event arrives with the same data exactly if it loses nothing and is not
    an all-day event of no length. *)
Theorem C62_transfer_iff cf1 s1 c1 p1 cr1 evs vs cf2 s2 c2 p2 cr2 sync s2' n :
  reachable cf1 s1 -> reachable cf2 s2 -> cal_events s1 c1 p1 cr1 = Ok evs -> export_cal s1 c1 p1 cr1 = Ok vs ->
  step cf2 s2 (OImport c2 (Ok (Some (map wire vs))) p2 cr2 sync) = (s2', n, Ok tt) ->
  forall e, In e evs -> has_event s2 (e_uid e) = false ->
  exists r, get_event s2' (e_uid e) = Ok r
    /\ (same_public e (obj s2' r) <-> lossless e /\ (e_allday e = true -> e_duration e <> Some 0)).
Proof.
  intros H1 H2 E EX ST e He NEW.
  destruct (C62_arrives_exact cf1 s1 c1 p1 cr1 evs vs cf2 s2 c2 p2 cr2 sync s2' n H1 H2 E EX ST e He NEW) as (r & o & G & M & (A & (d & D & T1 & T2) & _) & WK & _).
  exists r. split; [exact G|]. set (e' := obj s2' r) in *. cbv zeta in T2.
  destruct WK as [(d' & D' & OK) WK]. assert (d' = d) by congruence. subst d'.
  destruct A as (A0 & A1 & A2 & A3 & A4 & A5 & A6 & A7 & A8 & A9 & A10).
  assert (TI : e_dtstart e' = e_dtstart e /\ e_duration e' = e_duration e <-> (exists d, times_exportable e d) /\ (e_allday e = true -> e_duration e <> Some 0)).
  { rewrite T1, T2, D. split.
    - intros [Q1 Q2]. assert (Q3 := f_equal (fun o => match o with Some x => x | None => 0 end) Q2). cbv beta iota in Q3. split.
      + exists d. split; [exact D|]. split; [exact OK|]. unfold cut in *. destruct (e_allday e); [|unfold SECOND; lia].
        destruct (Z.eqb_spec (e_dtstart e + d - (e_dtstart e + d) mod DAY - (e_dtstart e - e_dtstart e mod DAY)) 0); unfold DAY in *; lia.
      + intros AD Y. assert (d = 0) by congruence. subst d. rewrite AD, Z.add_0_r, Z.sub_diag in Q3. cbn in Q3. unfold DAY in Q3. lia.
    - intros [(d2 & D2 & _ & Q) NZ]. assert (d2 = d) by congruence. subst d2. unfold cut. destruct (e_allday e).
      + assert (NZ' : d <> 0) by (intros ->; now apply NZ). split; [lia|]. f_equal.
        destruct (Z.eqb_spec (e_dtstart e + d - (e_dtstart e + d) mod DAY - (e_dtstart e - e_dtstart e mod DAY)) 0); unfold DAY in *; lia.
      + unfold SECOND in Q. split; [lia|]. f_equal. lia. }
  assert (RU : opt_rule_eqb (e_recurrence e') (e_recurrence e) = true <-> forall rr, e_recurrence e = Some rr -> rule_exportable rr).
  { destruct (e_recurrence e) as [rr|].
    - destruct A10 as (r' & -> & L). cbn. pose proof (rule_left_eq rr r' L (WK rr eq_refl)) as Q. split.
      + intros X r0 Y. apply rule_eq_sym in X. apply Q in X. congruence.
      + intros X. apply rule_eq_sym, Q, X. reflexivity.
    - rewrite A10. cbn. split; [discriminate|reflexivity]. }
  assert (DD : e_document e' = e_document e <-> e_document e <> Some ""%string).
  { rewrite A9. destruct (e_document e) as [[|a x]|]; split; congruence. }
  unfold same_public, lossless. rewrite RU, DD, A0, A1, A2, A3, A4, A5, A6, A7, A8. tauto.
Qed.
Print Assumptions C62_transfer_iff.

(** * C85: events the text does not name *)
(** Whatever the outcome, an event whose id is not in the text is never changed,
    and it is removed at most by a synchronizing import. *)
Theorem C85_unnamed cf s c parsed p cr sync u k : reachable cf s -> get_event s u = Ok k -> ~ In u (text_ids parsed) ->
  let s' := sst (step cf s (OImport c parsed p cr sync)) in
  obj s' k = obj s k /\ (get_event s' u = Ok k \/ (sync = true /\ has_event s' u = false)).
Proof.
  intros H G N. apply reachable_store in H. cbn [step]. cbv zeta.
  destruct (import_cases cf s c parsed p cr sync) as [(evs & vs & E1 & -> & ->)|(-> & _ & _)]; [|auto].
  set (known := nodup string_dec (map e_uid evs)). cbn [text_ids] in N.
  pose proof (import_loop_frame1 cf c known vs s) as F. pose proof (import_loop_tracks cf c known vs s H) as (I1 & _).
  destruct (frame_other _ _ s _ u H F N N) as [G1 G2]. unfold get_event in *. destruct (dget (sys_store s) u) as [k0|] eqn:D; [|discriminate].
  assert (k0 = k) by congruence. subst k0. specialize (G2 k eq_refl).
  pose proof (fun us => import_loop_ok cf c known vs s us (known_stored s c p cr evs H E1)) as OKL.
  destruct (import_loop cf s c known vs) as [[s1 n1] [us|x|]]; unfold sst, srs in *; cbn [fst snd sbind] in *;
    [|split; [exact G2|left; now rewrite G1]..].
  destruct sync; [|cbn; split; [exact G2|left; now rewrite G1]].
  destruct (OKL us eq_refl) as (-> & _).
  destruct (delete_loop_ok (filter (fun u => negb (str_in u (import_uids vs))) known) s1 I1) as (s3 & X & D1 & _ & _ & D4).
  { apply NoDup_filter, NoDup_nodup. }
  { intros w Hw. apply filter_In in Hw as [Hw _]. eapply frame_has; [exact F|]. apply (known_stored s c p cr evs H E1). exact Hw. }
  rewrite X. cbn [fst snd]. split; [unfold obj; rewrite D1; exact G2|]. unfold has_event, get_event. rewrite D4.
  destruct (str_in u _); [right; auto|left]. now rewrite G1.
Qed.
Print Assumptions C85_unnamed.

(** ** cases *)
(** ann's calendar with a text that changes one event, leaves one to be removed and
    adds one; bob's event is named but not shown *)
Example C85_case : let s := run cf0 office in let vs := [x_event "a1" 732503 "Moved" []; x_event "b1" 732504 "Stolen" []; x_event "n1" 732505 "New" []]%string in
  NoDup (import_uids vs) /\ srs (step cf0 s (OImport 0 (Ok (Some vs)) (None, None) None true)) = Ok tt
  /\ snt (step cf0 s (OImport 0 (Ok (Some vs)) (None, None) None true)) = [NModified "a1"; NCreated "n1"; NDeleted "a2"]%string.
Proof.
  cbv zeta. split; [cbn; repeat (constructor; [cbn; intuition discriminate|]); constructor|]. vm_compute. auto.
Qed.

(** a diary with an event that survives the round trip, and others that do not:
    exceptions, fractions of a second, an all-day event that starts at noon *)
Definition x_mixed : system := run cf0
  [OAttendee "ann" "Ann" "INDIVIDUAL"; OCalendar; OAddAttendee 0 ann;
   OCreate (Some "a") (p_spec (p_at 732501 9) (Some HOUR) false ann []) 0;
   OCreate (Some "b") (r_spec (p_at 732501 9) HOUR ann (Some (mkRule KDaily 2 (Some 5) None [VDate 732503] [] "monthday"))) 0;
   OCreate (Some "c") (p_spec (p_at 732501 9 + 250000) (Some HOUR) false ann []) 0;
   OCreate (Some "d") (p_spec (p_at 732501 0) (Some DAY) true ann []) 0;
   OAssign 3 (p_spec (p_at 732501 12) (Some DAY) true ann [])]%string.

Example C47_exact_case : exists evs vs, cal_events x_mixed 0 (None, None) None = Ok evs /\ export_cal x_mixed 0 (None, None) None = Ok vs
  /\ main_attendee x_mixed 0 = Ok ann /\ map e_uid evs = ["a"; "b"; "c"; "d"]%string
  /\ srs (step cf0 x_mixed (OImport 0 (Ok (Some (map wire vs))) (None, None) None true)) = Ok tt
  /\ snt (step cf0 x_mixed (OImport 0 (Ok (Some (map wire vs))) (None, None) None true)) = map NModified ["b"; "c"; "d"]%string
  /\ e_dtstart (obj (sst (step cf0 x_mixed (OImport 0 (Ok (Some (map wire vs))) (None, None) None true))) 3) = p_at 732501 0
  (* the same text in another store *)
  /\ forallb (fun e => negb (has_event (run cf0 office) (e_uid e))) evs = true
  /\ srs (step cf0 (run cf0 office) (OImport 0 (Ok (Some (map wire vs))) (None, None) None false)) = Ok tt.
Proof.
  eexists. eexists. split; [vm_compute; reflexivity|]. split; [vm_compute; reflexivity|]. split; [vm_compute; reflexivity|].
  split; [vm_compute; reflexivity|]. split; [vm_compute; reflexivity|]. split; [vm_compute; reflexivity|]. split; vm_compute; auto.
Qed.

(** of the four, the first arrives with the same data in another store, the one
    with a fraction of a second does not *)
Example C62_exact_case : exists evs vs s' ra rc, cal_events x_mixed 0 (None, None) None = Ok evs /\ export_cal x_mixed 0 (None, None) None = Ok vs
  /\ reachable cf0 x_mixed /\ reachable cf0 (run cf0 office)
  /\ step cf0 (run cf0 office) (OImport 0 (Ok (Some (map wire vs))) (None, None) None false)
     = (s', map NCreated ["a"; "b"; "c"; "d"]%string, Ok tt)
  /\ get_event s' "a" = Ok ra /\ get_event s' "c" = Ok rc
  /\ e_dtstart (obj s' ra) = e_dtstart (obj x_mixed 0) /\ e_dtstart (obj s' rc) <> e_dtstart (obj x_mixed 2).
Proof.
  eexists. eexists. eexists. eexists. eexists. split; [vm_compute; reflexivity|]. split; [vm_compute; reflexivity|].
  split; [apply run_reachable|]. split; [apply run_reachable|]. split; [vm_compute; reflexivity|].
  split; [vm_compute; reflexivity|]. split; [vm_compute; reflexivity|]. split; [vm_compute; reflexivity|]. vm_compute. discriminate.
Qed.

(** bob's role in an event already shown: the line changes it, and the event is
    reported as modified *)
Example C63_role_case : let s := run cf0 office in
  let vs := [x_event "a2" 732501 "" [("bob", Some "TENTATIVE", Some "OPT-PARTICIPANT")]; x_event "a1" 732500 "" []]%string in
  let o := OImport 0 (Ok (Some vs)) (None, None) None false in
  reachable cf0 s /\ NoDup (import_uids vs) /\ srs (step cf0 s o) = Ok tt
  /\ get_role (obj s 1) bob = Ok (Some "CHAIR"%string)
  /\ get_role (obj (sst (step cf0 s o)) 1) bob = Ok (Some "OPT-PARTICIPANT"%string)
  /\ In (NModified "a2"%string) (snt (step cf0 s o)).
Proof.
  cbv zeta. split; [apply run_reachable|]. split; [cbn; repeat (constructor; [cbn; intuition discriminate|]); constructor|].
  do 3 (split; [vm_compute; reflexivity|]). vm_compute. auto.
Qed.
