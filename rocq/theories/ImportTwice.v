(** Importing the same text a second time. *)
From Verif Require Import Base PyDate DateFacts Recurrent CalTime TimeProofs Event Storage ICal System
  QueryProofs EventProofs SpecProofs SystemProofs IdProofs ImportProofs ImportContent.
From Coq Require Import ZifyBool.
Ltac Zify.zify_post_hook ::= Z.div_mod_to_equations.
Local Opaque ord2ymd year_of month_of day_of ymd2ord days_in_month is_leap.

(** ** setting a specification again *)
Lemma dict_ext {V} (d : dict V) : forall d', dkeys d = dkeys d' -> NoDup (dkeys d) -> (forall k, dget d k = dget d' k) -> d = d'.
Proof.
  induction d as [|[k v] d IH]; intros [|[k' v'] d'] K N G; try discriminate K; [reflexivity|].
  unfold dkeys in K, N. cbn [map fst] in K, N. assert (k' = k) by congruence. subst k'.
  assert (K' : dkeys d = dkeys d') by (unfold dkeys; congruence). inversion N as [|? ? N1 N2]; subst. pose proof (G k) as Gk. cbn in Gk. rewrite String.eqb_refl in Gk.
  assert (v' = v) by congruence. subst v'. f_equal. apply IH; [exact K'|exact N2|]. clear Gk. intros y. specialize (G y). cbn in G.
  destruct (String.eqb_spec y k) as [Y|NE]; [rewrite Y in *|exact G].
  assert (A : dget d k = None) by now apply dget_none. assert (B : dget d' k = None) by (apply dget_none; now rewrite <- K'). congruence.
Qed.

Lemma dset_keys_same {V} (d : dict V) k v : In k (dkeys d) -> dkeys (dset d k v) = dkeys d.
Proof.
  induction d as [|[k' v'] d IH]; [intros []|]. cbn. destruct (String.eqb_spec k k') as [->|N]; [reflexivity|].
  intros [H|H]; [congruence|]. cbn. f_equal. now apply IH.
Qed.

Lemma set_lines_total known l : (forall i ps ro, In (i, ps, ro) l -> known i = true /\ In (text ro "REQ-PARTICIPANT") roles) ->
  forall e, exists e', set_attendees e (map (line_entry known) l) = (e', [], Ok tt)
    /\ ((forall i ps ro, In (i, ps, ro) l -> In i (dkeys (e_state e)) /\ In i (dkeys (e_role e))) ->
        dkeys (e_state e') = dkeys (e_state e) /\ dkeys (e_role e') = dkeys (e_role e)).
Proof.
  induction l as [|[[j ps] ro] l IH]; intros H e; [exists e; split; [reflexivity|auto]|].
  cbn [map line_entry set_attendees]. destruct (H j ps ro (or_introl eq_refl)) as [K R]. rewrite K.
  change (mbind (set_role e (Some j) (text ro "REQ-PARTICIPANT")) (fun e1 => set_status_raw e1 (Some j) (Some (text ps "NEEDS-ACTION"))))
      with (entry_step e (Some j) (text ro "REQ-PARTICIPANT") (Some (text ps "NEEDS-ACTION"))).
  rewrite entry_step_ok by exact R. rewrite mbind_ok.
  match goal with |- context [set_attendees ?x _] => set (e1 := x) end.
  destruct (IH (fun i ps ro X => H i ps ro (or_intror X)) e1) as (e' & E & KK). rewrite E. exists e'. split; [reflexivity|].
  intros P. destruct (P j ps ro (or_introl eq_refl)) as [P1 P2].
  assert (S1 : dkeys (e_state e1) = dkeys (e_state e)) by (subst e1; cbn; now apply dset_keys_same).
  assert (S2 : dkeys (e_role e1) = dkeys (e_role e)) by (subst e1; cbn; now apply dset_keys_same).
  rewrite <- S1, <- S2. apply KK. intros i ps' ro' X. rewrite S1, S2. eapply P. right. exact X.
Qed.

Lemma event_ext e e' : e_uid e = e_uid e' -> e_dtstart e = e_dtstart e' -> e_duration e = e_duration e' -> e_title e = e_title e' ->
  e_description e = e_description e' -> e_location e = e_location e' -> e_status e = e_status e' -> e_recurrence e = e_recurrence e' ->
  e_allday e = e_allday e' -> e_categories e = e_categories e' -> e_transparent e = e_transparent e' -> e_access e = e_access e' ->
  e_document e = e_document e' -> e_organizer e = e_organizer e' -> e_state e = e_state e' -> e_role e = e_role e' -> e = e'.
Proof. destruct e, e'. cbn. intros. subst. reflexivity. Qed.

Definition base_of (sp : spec) (e : event) : event :=
  match s_organizer sp with Some i => organize (set_attrs sp e) i | None => with_organizer (set_attrs sp e) None end.

(** an event that looks as if the specification had just been set *)
Lemma set_again tz kn df v sp e0 e1 n : import_spec tz kn df v = Ok sp -> set_on_object sp e0 = (e1, n, Ok tt) ->
  dicts_ok e1 -> forall e, e_uid e = e_uid e1 ->
  e_state e = e_state e1 -> e_role e = e_role e1 -> set_attrs sp e = e -> e_organizer e = e_organizer e1 ->
  set_on_object sp e = (e, [], Ok tt).
Proof.
  intros ES E [N1 N2] e U ST RO AT OR.
  assert (O1 : e_organizer e1 = s_organizer sp).
  { destruct (set_on_object_attrs sp e0) as (_ & _ & _ & _ & _ & _ & _ & _ & _ & _ & _ & _ & _ & O). rewrite E in O. exact O. }
  destruct (set_on_object_parts tz kn df v sp e0 e1 n ES E) as (AK & AR & P3 & P4).
  destruct (set_lines_total kn (v_attendees v)) with (e := base_of sp e) as (e' & E' & KK).
  { intros i ps ro H. split; [eapply AK; exact H|eapply AR; exact H]. }
  assert (EE : set_on_object sp e = (e', [], Ok tt)).
  { rewrite set_on_object_eq, (import_spec_entries _ _ _ _ _ ES). exact E'. }
  rewrite EE. f_equal. f_equal.
  assert (PRES : forall i, opt_str_eqb (s_organizer sp) (Some i) = true \/ last_line (v_attendees v) i <> None ->
      In i (dkeys (e_state e)) /\ In i (dkeys (e_role e))).
  { intros i Hi. rewrite ST, RO. split; apply dget_some.
    - rewrite P3, O1. unfold said_status. destruct (last_line (v_attendees v) i) as [[ps ro]|]; [eauto|].
      destruct Hi as [->|X]; [eauto|congruence].
    - rewrite P4, O1. unfold said_role. destruct (last_line (v_attendees v) i) as [[ps ro]|]; [eauto|].
      destruct Hi as [->|X]; [eauto|congruence]. }
  assert (BK : dkeys (e_state (base_of sp e)) = dkeys (e_state e) /\ dkeys (e_role (base_of sp e)) = dkeys (e_role e)).
  { unfold base_of. destruct (s_organizer sp) as [o|] eqn:SO; [|auto]. cbn.
    destruct (PRES o) as [A B]; [left; rewrite opt_str_eqb_id; apply String.eqb_refl|]. split; now apply dset_keys_same. }
  destruct BK as [B1 B2]. destruct KK as [K1 K2].
  { intros i ps ro H. rewrite B1, B2. apply PRES. right. clear -H. induction (v_attendees v) as [|[[j ps'] ro'] l IH]; [destruct H|]. cbn.
    destruct H as [X|X]; [injection X as -> -> ->; rewrite String.eqb_refl; destruct (last_line l i); discriminate|].
    specialize (IH X). destruct (last_line l i); [discriminate|congruence]. }
  destruct (set_on_object_parts tz kn df v sp e e' [] ES EE) as (_ & _ & Q3 & Q4).
  destruct (set_on_object_attrs sp e) as (A0 & A1 & A2 & A3 & A4 & A5 & A6 & A7 & A8 & A9 & A10 & A11 & A12 & A13).
  rewrite EE in *. unfold mev in *. cbn [fst] in *.
  assert (S : e_state e' = e_state e).
  { apply dict_ext; [congruence|rewrite K1, B1, ST; exact N1|]. intros i. rewrite Q3, A13. unfold said_status.
    destruct (last_line (v_attendees v) i) as [[ps ro]|] eqn:L.
    - rewrite ST, P3. unfold said_status. now rewrite L.
    - destruct (opt_str_eqb (s_organizer sp) (Some i)) eqn:Y; [|reflexivity]. rewrite ST, P3, O1. unfold said_status. now rewrite L, Y. }
  assert (R : e_role e' = e_role e).
  { apply dict_ext; [congruence|rewrite K2, B2, RO; exact N2|]. intros i. rewrite Q4, A13. unfold said_role.
    destruct (last_line (v_attendees v) i) as [[ps ro]|] eqn:L.
    - rewrite RO, P4. unfold said_role. now rewrite L.
    - destruct (opt_str_eqb (s_organizer sp) (Some i)) eqn:Y; [|reflexivity]. rewrite RO, P4, O1. unfold said_role. now rewrite L, Y. }
  assert (T : forall A (f : event -> A), f e = f (set_attrs sp e)) by (intros; now rewrite AT).
  apply event_ext; [exact A0|rewrite T; assumption..| | |].
  - congruence.
  - exact S.
  - exact R.
Qed.

Lemma set_attrs_twice sp e n e1 : set_on_object sp e = (e1, n, Ok tt) -> set_attrs sp e1 = e1.
Proof.
  intros E. destruct (set_on_object_attrs sp e) as (A0 & A1 & A2 & A3 & A4 & A5 & A6 & A7 & A8 & A9 & A10 & A11 & A12 & A13).
  rewrite E in *. unfold mev in *. cbn [fst] in *.
  apply event_ext; cbn; symmetry; solve [assumption|reflexivity].
Qed.

(** ** what an import did, exactly *)
Definition done (cf : config) (s : system) (c : nat) (known : list string) (v : vevent) (u : string) (s' : system) : Prop :=
  exists r, dget (sys_store s') u = Some r
  /\ ((In u known /\ dget (sys_store s) u = Some r /\ exists sp, import_spec (cf_tz cf) (source_knows s) (main_attendee s c) v = Ok sp
        /\ ((will_modify sp (obj s r) = Ok false /\ obj s' r = obj s r) \/ exists n, set_on_object sp (obj s r) = (obj s' r, n, Ok tt)))
      \/ (~ In u known /\ dget (sys_store s) u = None /\ exists sp, import_spec (cf_tz cf) (source_knows s) (main_attendee s c) v = Ok sp
        /\ new_event u sp = Ok (obj s' r))
      \/ (~ In u known /\ dget (sys_store s) u = Some r /\ obj s' r = obj s r)).

Lemma import_one_done cf s c known v u : store_inv s -> (forall k, In k known -> has_event s k = true) ->
  srs (import_one cf s c known v) = Ok u -> v_uid v = Some u /\ done cf s c known v u (sst (import_one cf s c known v)).
Proof.
  intros I KN E0. destruct (import_one_ok cf s c known v u KN E0) as [V _]. split; [exact V|]. revert E0.
  unfold import_one. rewrite V. destruct (str_in u known) eqn:K.
  - apply str_in_iff in K. intros E. apply sbind_inv_ok in E as ([] & E1 & _ & E3 & _). rewrite E3.
    unfold sst at 1. cbn [sret fst]. clear E3. revert E1. unfold import_existing. rewrite sbind_slift.
    specialize (KN u K). rewrite has_event_dget in KN. unfold get_event. destruct (dget (sys_store s) u) as [r|] eqn:D; [|discriminate].
    destruct I as [_ I]. destruct (I u r D) as (L & U & _).
    rewrite sbind_slift. destruct (import_spec _ _ _ v) as [sp| |] eqn:ES; try discriminate.
    rewrite sbind_slift. destruct (will_modify sp (obj s r)) as [[|]| |] eqn:W; try discriminate.
    + intros E1. apply sbind_inv_ok in E1 as ([] & E4 & _ & E5 & _). rewrite E5. unfold sst at 1. cbn [fst].
      unfold on_event in E4 |- *. destruct (set_on_object sp (obj s r)) as [[e1 n1] r1] eqn:SOO. unfold sst. cbn [fst].
      assert (R1 : r1 = Ok tt) by exact E4. subst r1.
      exists r. split; [exact D|]. left. split; [exact K|]. split; [exact D|]. exists sp. split; [exact ES|].
      right. exists n1. rewrite obj_heap, replace_nth_get. rewrite Nat.eqb_refl. apply Nat.ltb_lt in L. rewrite L. exact SOO.
    + intros _. unfold sst. cbn [sret fst]. exists r. split; [exact D|]. left. split; [exact K|]. split; [exact D|]. exists sp. auto.
  - assert (NK : ~ In u known) by (intros X; apply str_in_iff in X; congruence).
    rewrite has_event_dget. destruct (dget (sys_store s) u) as [r|] eqn:D.
    + intros _. unfold sst. cbn [sret fst]. exists r. split; [exact D|]. right; right. auto.
    + intros E. apply sbind_inv_ok in E as ([] & E1 & _ & E3 & _). rewrite E3. unfold sst at 1. cbn [sret fst]. clear E3.
      revert E1. unfold import_new. rewrite sbind_slift. destruct (import_spec _ _ _ v) as [sp| |] eqn:ES; try discriminate.
      intros E1. apply sbind_inv_ok in E1 as (r & E4 & _ & E5 & _). rewrite E5. unfold sst at 1. cbn [sret fst].
      destruct (create_spec cf s (Some u) sp 0) as [(r' & e & -> & R & NE & _)|(_ & _ & X)]; [|now apply X in E4].
      unfold sst. cbn [fst]. exists r'. cbn [sys_store]. rewrite dget_dset, String.eqb_refl. split; [reflexivity|].
      right; left. split; [exact NK|]. split; [exact D|]. exists sp. split; [exact ES|].
      assert (OB : obj (mkSys (sys_heap s ++ [e]) (dset (sys_store s) u r') (sys_source s) (sys_cals s)) r' = e).
      { unfold obj. cbn [sys_heap]. rewrite R. rewrite app_nth2 by lia. now rewrite Nat.sub_diag. }
      rewrite OB. exact NE.
Qed.

Lemma import_loop_done cf c known l : forall s us, store_inv s -> (forall k, In k known -> has_event s k = true) ->
  NoDup (import_uids l) -> srs (import_loop cf s c known l) = Ok us ->
  forall v u, In v l -> v_uid v = Some u -> done cf s c known v u (sst (import_loop cf s c known l)).
Proof.
  induction l as [|w l IH]; intros s us I KN ND E v u Hv V; [destruct Hv|]. cbn [import_loop] in *.
  apply sbind_inv_ok in E as (uw & E1 & E2 & E3 & _). rewrite E3. clear E3.
  destruct (import_one_done cf s c known w uw I KN E1) as [W OW].
  pose proof (import_one_frame1 cf s c known w) as F1.
  pose proof (import_one_tracks cf s c known w I) as (I1 & _).
  set (s1 := sst (import_one cf s c known w)) in *.
  apply sbind_inv_ok in E2 as (us' & E4 & _ & E6 & _). rewrite E6. unfold sst at 1. cbn [sret fst]. clear E6.
  assert (ND' : ~ In uw (import_uids l) /\ NoDup (import_uids l)).
  { unfold import_uids in ND. cbn [flat_map] in ND. rewrite W in ND. cbn [app] in ND. now inversion ND. }
  destruct ND' as [N1 N2]. unfold import_uids in F1. cbn [flat_map] in F1. rewrite W in F1. cbn [app] in F1.
  pose proof (import_loop_frame1 cf c known l s1) as F2.
  set (s2 := sst (import_loop cf s1 c known l)) in *.
  destruct Hv as [->|Hv].
  - assert (uw = u) by congruence. subst uw. destruct OW as (r & D & O).
    destruct (frame_other _ _ s1 s2 u I1 F2 N1 N1) as [G1 G2]. exists r. rewrite G1, (G2 r D). auto.
  - assert (NU : u <> uw).
    { intros ->. apply N1. unfold import_uids. apply in_flat_map. exists v. rewrite V. split; [exact Hv|now left]. }
    assert (KN1 : forall k, In k known -> has_event s1 k = true).
    { intros k Hk. eapply frame_has; [exact F1|auto]. }
    destruct (IH s1 us' I1 KN1 N2 E4 v u Hv V) as (r & D & O). exists r. split; [exact D|].
    assert (NI : ~ In u [uw]) by (intros [X|[]]; congruence).
    destruct (frame_other _ _ s s1 u I F1 NI NI) as [G1 G2].
    destruct F1 as (_ & _ & _ & _ & FS & FC). destruct (same_source s s1 c FS FC) as [SK SM]. rewrite SK, SM, G1 in O.
    destruct O as [(O1 & O2 & O3)|[O|(O1 & O2 & O3)]]; [|right; now left|].
    { left. split; [exact O1|]. split; [exact O2|]. rewrite <- (G2 r O2). exact O3. }
    right; right.
    split; [exact O1|]. split; [exact O2|]. transitivity (obj s1 r); [exact O3|now apply G2].
Qed.

(** ** a component that changes nothing *)
(** the event as the specification left it *)
Definition fresh (sp : spec) (e : event) : Prop := dicts_ok e /\ exists e0 n, set_on_object sp e0 = (e, n, Ok tt).

Lemma fresh_again tz kn df v sp e : import_spec tz kn df v = Ok sp -> fresh sp e -> set_on_object sp e = (e, [], Ok tt).
Proof. intros ES (D & e0 & n & E). eapply set_again; [exact ES|exact E|exact D|reflexivity..| |reflexivity]. eapply set_attrs_twice. exact E. Qed.

Definition settled (cf : config) (s : system) (c : nat) (known : list string) (v : vevent) : Prop :=
  exists u r, v_uid v = Some u /\ dget (sys_store s) u = Some r
  /\ (In u known -> exists sp, import_spec (cf_tz cf) (source_knows s) (main_attendee s c) v = Ok sp
       /\ (will_modify sp (obj s r) = Ok false \/ fresh sp (obj s r))).

Lemma replace_nth_self {A} (l : list A) d : forall r, replace_nth r l (nth r l d) = l.
Proof. induction l as [|x l IH]; intros [|r]; cbn; try reflexivity. f_equal. apply IH. Qed.

Lemma import_one_settled cf s c known v : settled cf s c known v -> sst (import_one cf s c known v) = s.
Proof.
  intros (u & r & V & D & H). unfold import_one. rewrite V. destruct (str_in u known) eqn:K.
  - apply str_in_iff in K. destruct (H K) as (sp & ES & W). unfold import_existing, get_event. rewrite D, sbind_slift, sbind_slift, ES, sbind_slift.
    destruct (will_modify sp (obj s r)) as [[|]| |] eqn:WM; try reflexivity. destruct W as [W|W]; [discriminate|].
    apply (fresh_again _ _ _ _ _ _ ES) in W. unfold on_event. rewrite W. unfold sst. cbn. unfold with_heap, obj. rewrite replace_nth_self. now destruct s.
  - rewrite has_event_dget, D. reflexivity.
Qed.

Lemma import_loop_settled cf c known l : forall s, (forall v, In v l -> settled cf s c known v) -> sst (import_loop cf s c known l) = s.
Proof.
  induction l as [|v l IH]; intros s H; [reflexivity|]. cbn [import_loop].
  pose proof (import_one_settled cf s c known v (H v (or_introl eq_refl))) as E.
  destruct (import_one cf s c known v) as [[s1 n1] r1]. unfold sst in E. cbn [fst] in E. subst s1.
  destruct r1 as [u|x|]; [|reflexivity..]. cbn [sbind]. pose proof (IH s (fun v X => H v (or_intror X))) as E2.
  destruct (import_loop cf s c known l) as [[s2 n2] r2]. unfold sst in E2. cbn [fst] in E2. subst s2. destruct r2; reflexivity.
Qed.

(** ** being shown depends on the event only *)
Lemma visible_same s s' c p cr evs u r : store_inv s -> store_inv s' -> sys_source s' = sys_source s -> sys_cals s' = sys_cals s ->
  cal_events s c p cr = Ok evs -> dget (sys_store s) u = Some r -> dget (sys_store s') u = Some r -> obj s' r = obj s r ->
  visible s' c p cr u -> visible s c p cr u.
Proof.
  intros I I' ES EC E D D' O (evs' & e & E' & He & U).
  destruct (cal_events_known s' c p cr evs' e I' E' He) as (r' & Dr & ->). rewrite U in Dr. assert (r' = r) by congruence. subst r'.
  unfold cal_events in E, E'. assert (A : cal_attendees s' c = cal_attendees s c).
  { unfold cal_attendees, cal, source_get. now rewrite ES, EC. }
  rewrite A in E'. destruct (cal_attendees s c) as [atts| |] eqn:EA; try discriminate. cbn [rbind] in *.
  exists evs, (obj s r). split; [unfold cal_events; rewrite EA; exact E|]. split; [|now rewrite <- O].
  revert E E' He. unfold calendar_events, get_events.
  destruct (matching_events (stored s) _) as [m| |] eqn:M; try discriminate.
  destruct (matching_events (stored s') _) as [m'| |] eqn:M'; try discriminate. cbn [rbind]. intros E E' He.
  unfold matching_events in M, M'. apply (rfilter_in _ _ _ E' _) in He as [He Pe]. apply (rfilter_in _ _ _ M' _) in He as [_ Me].
  rewrite O in *. apply (rfilter_in _ _ _ E _). split; [|exact Pe]. apply (rfilter_in _ _ _ M _). split; [|exact Me].
  unfold stored. apply in_map_iff. exists (u, r). split; [reflexivity|]. now apply dget_in.
Qed.

(** ** twice *)
(** a new whole-day event in the text has an explicit length of whole days *)
Definition whole_days (cf : config) (v : vevent) : Prop :=
  forall t d, says_times (cf_tz cf) v t d true -> exists k, 1 <= k /\ d = k * DAY.

Lemma new_event_settled cf kn df v sp u e : whole_days cf v -> import_spec (cf_tz cf) kn df v = Ok sp -> new_event u sp = Ok e ->
  fresh sp e.
Proof.
  intros WD ES N. destruct (new_event_eq _ _ _ N) as (e0 & n & E0 & EQ).
  assert (D0 : dicts_ok e0).
  { pose proof (set_on_object_dicts sp (blank u)) as X. rewrite E0 in X. apply X. split; constructor. }
  pose proof (set_attrs_twice _ _ _ _ E0) as AT.
  destruct (import_spec_says _ _ _ _ _ ES) as ((d & SD & ST) & _).
  assert (X : e = e0).
  { destruct (s_allday sp) eqn:A; [|exact EQ]. destruct (WD _ _ ST) as (k & K1 & K2).
    assert (DU : e_duration e0 = Some d) by (rewrite <- AT; exact SD).
    assert (SS : e_dtstart e0 = s_dtstart sp) by (rewrite <- AT; reflexivity).
    destruct ST as (t0 & _ & LT & AD & _). destruct t0; try discriminate AD. cbn in LT.
    destruct (allday_spec e0) as (Q1 & _ & Q3). destruct (Q3 d DU) as (k' & K3 & K4 & K5 & K6); [unfold DAY in *; lia|].
    assert (k' <= k) by (apply K6; lia). assert (k' = k) by (unfold DAY in *; lia). subst k'.
    destruct (allday_rest e0) as (R0 & R1 & R2 & R3 & R4 & R5 & R6 & R7 & R8 & R9 & R10 & R11 & R12 & R13).
    rewrite EQ. apply event_ext; try assumption; [|congruence]. rewrite Q1, SS, LT. unfold dt_date. rewrite Z.div_mul by (unfold DAY; lia). reflexivity. }
  rewrite X. split; [exact D0|]. eauto.
Qed.

Lemma import_again_core cf s c vs p cr sync s' n : reachable cf s -> NoDup (import_uids vs) ->
  import_cal cf s c (Ok (Some vs)) p cr sync = (s', n, Ok tt) ->
  (forall v u, In v vs -> v_uid v = Some u -> has_event s u = false -> whole_days cf v) ->
  reachable cf s' /\ source_knows s' = source_knows s /\ main_attendee s' c = main_attendee s c
  /\ forall evs', cal_events s' c p cr = Ok evs' ->
       (forall v, In v vs -> settled cf s' c (nodup string_dec (map e_uid evs')) v)
       /\ (sync = true -> filter (fun u => negb (str_in u (import_uids vs))) (nodup string_dec (map e_uid evs')) = []).
Proof.
  intros RE ND E WD. pose proof (reachable_store _ _ RE) as I.
  assert (RE' : reachable cf s').
  { destruct RE as (h & Hh). exists (h ++ [(OImport c (Ok (Some vs)) p cr sync, n, Ok tt)]). econstructor; [exact Hh|]. exact E. }
  pose proof (reachable_store _ _ RE') as I'.
  pose proof (import_frame cf s c (Ok (Some vs)) p cr sync I) as FR. rewrite E in FR. unfold sst, srs, snt in FR. cbn [fst snd] in FR.
  destruct (import_cases cf s c (Ok (Some vs)) p cr sync) as [(evs & vs' & E1 & E2 & EQ)|(_ & _ & ER)].
  2:{ exfalso. apply (ER vs eq_refl). now rewrite E. }
  assert (vs' = vs) by congruence. subst vs'. set (known := nodup string_dec (map e_uid evs)) in *.
  rewrite E1 in FR. fold known in FR. destruct FR as (s1 & del & F & FH & FS & FC & FD & DEL1 & _ & DEL2 & ALL & _).
  cbn [text_ids] in *.
  assert (KN : forall k, In k known -> has_event s k = true) by (apply (known_stored s c p cr evs I E1)).
  assert (VIS : forall u, visible s c p cr u <-> In u known).
  { intros u. unfold known. rewrite known_in. split.
    - intros (evs' & e & X & Y & Z). assert (evs' = evs) by congruence. subst. eauto.
    - intros (e & Y & Z). exists evs, e. auto. }
  (* the loop of the first import *)
  assert (LOOP : exists us, srs (import_loop cf s c known vs) = Ok us
     /\ sys_heap s' = sys_heap (sst (import_loop cf s c known vs))
     /\ forall u, In u (import_uids vs) -> dget (sys_store s') u = dget (sys_store (sst (import_loop cf s c known vs))) u).
  { rewrite E in EQ. pose proof (import_loop_tracks cf c known vs s I) as (I1 & _).
    pose proof (import_loop_frame1 cf c known vs s) as F1.
    pose proof (fun us => import_loop_ok cf c known vs s us KN) as OKL.
    destruct (import_loop cf s c known vs) as [[s2 n2] [us|x|]]; [|discriminate EQ..]. unfold sst, srs in *. cbn [fst snd sbind] in *.
    exists us. split; [reflexivity|]. destruct (OKL us eq_refl) as (-> & _). destruct sync.
    - destruct (delete_loop_ok (filter (fun u => negb (str_in u (import_uids vs))) known) s2 I1) as (s3 & D & D1 & D2 & D3 & D4).
      { apply NoDup_filter, NoDup_nodup. }
      { intros u Hu. apply filter_In in Hu as [Hu _]. eapply frame_has; [exact F1|auto]. }
      rewrite D in EQ. assert (s' = s3) by congruence. subst s3. split; [exact D1|]. intros u Hu. rewrite D4.
      destruct (str_in u _) eqn:X; [|reflexivity]. apply str_in_iff, filter_In in X as [_ X]. apply str_in_iff in Hu. rewrite Hu in X. discriminate.
    - cbn in EQ. assert (s' = s2) by congruence. subst s2. auto. }
  destruct LOOP as (us & LOK & LH & LD).
  assert (OB : forall r, obj s' r = obj (sst (import_loop cf s c known vs)) r) by (intros r; unfold obj; now rewrite LH).
  destruct F as (F1 & F2 & F3 & F4 & F5 & F6).
  assert (SRC : sys_source s' = sys_source s) by congruence. assert (CAL : sys_cals s' = sys_cals s) by congruence.
  destruct (same_source s s' c SRC CAL) as [SK SM].
  destruct (ALL eq_refl vs eq_refl) as [HU _].
  (* the second import *)
  split; [exact RE'|]. split; [exact SK|]. split; [exact SM|]. intros evs' E1'. set (known' := nodup string_dec (map e_uid evs')) in *.
  assert (VIS' : forall u, In u known' -> visible s' c p cr u).
  { intros u Hu. apply known_in in Hu as (e & Y & Z). exists evs', e. auto. }
  assert (KN' : forall k, In k known' -> has_event s' k = true) by (apply (known_stored s' c p cr evs' I' E1')).
  assert (SET : forall v, In v vs -> settled cf s' c known' v).
  { intros v Hv. destruct (v_uid v) as [u|] eqn:U; [|now elim (HU v Hv)]. exists u.
    assert (Hu : In u (import_uids vs)).
    { unfold import_uids. apply in_flat_map. exists v. rewrite U. split; [exact Hv|now left]. }
    destruct (import_loop_done cf c known vs s us I KN ND LOK v u Hv U) as (r & D & O). rewrite <- LD in D by exact Hu. rewrite <- OB in O.
    exists r. split; [exact U|]. split; [exact D|]. intros K'. rewrite SK, SM.
    destruct O as [(K & D0 & sp & ES & O)|[(NK & D0 & sp & ES & O)|(NK & D0 & O)]].
    - exists sp. split; [exact ES|]. destruct O as [(W & ->)|(n1 & O)]; [now left|]. right.
      split; [eapply reachable_dicts_ok; exact RE'|eauto].
    - exists sp. split; [exact ES|]. right. eapply new_event_settled; [|exact ES|exact O]. apply (WD v u Hv U). rewrite has_event_dget, D0. reflexivity.
    - exfalso. apply NK, VIS. eapply visible_same with (s' := s'); eauto. }
  split; [exact SET|]. intros ->.
  destruct (filter _ known') as [|u l] eqn:X; [reflexivity|]. exfalso. assert (Hu : In u (u :: l)) by now left. rewrite <- X in Hu.
    apply filter_In in Hu as [Hu N]. assert (NT : ~ In u (import_uids vs)) by (intros T; apply str_in_iff in T; rewrite T in N; discriminate).
    pose proof (KN' u Hu) as HE. rewrite has_event_dget in HE. destruct (dget (sys_store s') u) as [r|] eqn:D'; [|discriminate].
    assert (ND' : ~ In u del). { intros T. rewrite FD in D'. apply str_in_iff in T. rewrite T in D'. discriminate. }
    apply ND', (DEL2 eq_refl eq_refl vs eq_refl). split; [|exact NT].
    assert (D1 : dget (sys_store s1) u = Some r). { rewrite FD in D'. destruct (str_in u del); [discriminate|exact D']. }
    assert (D0 : dget (sys_store s) u = Some r).
    { destruct (dget (sys_store s) u) as [r0|] eqn:D0; [rewrite (F2 u r0 D0) in D1; congruence|]. now destruct (F3 u r D1 D0). }
    destruct I as [NDK IU]. destruct (IU u r D0) as (L & UU & _).
    destruct (in_dec string_dec u known) as [K|K]; [now apply VIS|].
    eapply visible_same with (s' := s'); eauto; [split; eauto|].
    assert (O1 : obj s' r = obj s1 r) by (unfold obj; now rewrite FH). rewrite O1. apply F1; [exact L|].
    intros w Hw Dw. destruct (IU w r Dw) as (_ & UW & _). assert (w = u) by congruence. now subst.
Qed.

Lemma import_again cf s c vs p cr sync s' n : reachable cf s -> NoDup (import_uids vs) ->
  import_cal cf s c (Ok (Some vs)) p cr sync = (s', n, Ok tt) ->
  (forall v u, In v vs -> v_uid v = Some u -> has_event s u = false -> whole_days cf v) ->
  sst (import_cal cf s' c (Ok (Some vs)) p cr sync) = s'.
Proof.
  intros RE ND E WD. destruct (import_again_core cf s c vs p cr sync s' n RE ND E WD) as (RE' & _ & _ & CORE).
  pose proof (reachable_store _ _ RE') as I'.
  destruct (import_cases cf s' c (Ok (Some vs)) p cr sync) as [(evs' & vs' & E1' & E2' & EQ')|(EQ' & _ & _)]; [|exact EQ'].
  assert (vs' = vs) by congruence. subst vs'. destruct (CORE evs' E1') as [SET NIL]. set (known' := nodup string_dec (map e_uid evs')) in *.
  assert (KN' : forall k, In k known' -> has_event s' k = true) by (apply (known_stored s' c p cr evs' I' E1')).
  rewrite EQ'. pose proof (import_loop_settled cf c known' vs s' SET) as LS.
  pose proof (fun us => import_loop_ok cf c known' vs s' us KN') as OKL.
  destruct (import_loop cf s' c known' vs) as [[s2 n2] r2]. unfold sst, srs in LS, OKL. cbn [fst snd] in LS, OKL. subst s2.
  destruct r2 as [us'|x|]; [|reflexivity..]. destruct (OKL us' eq_refl) as (-> & _). cbn [sbind].
  destruct sync; [|reflexivity]. rewrite NIL by reflexivity. reflexivity.
Qed.

(** ** silence *)
(** every line asks for the role REQ-PARTICIPANT, lines about one person agree,
    and a line about the organizer says ACCEPTED *)
Definition calm (v : vevent) (org : option string) : Prop :=
  org <> None /\ forall i ps ro, In (i, ps, ro) (v_attendees v) ->
    text ro "REQ-PARTICIPANT" = "REQ-PARTICIPANT"%string
    /\ (forall ps' ro', In (i, ps', ro') (v_attendees v) -> text ps' "NEEDS-ACTION" = text ps "NEEDS-ACTION")
    /\ (org = Some i -> text ps "NEEDS-ACTION" = "ACCEPTED"%string).

Lemma in_last_line l i ps ro : In (i, ps, ro) l -> exists x, last_line l i = Some x.
Proof.
  induction l as [|[[j ps'] ro'] l IH]; [intros []|]. cbn. intros [X|X].
  - injection X as -> -> ->. rewrite String.eqb_refl. destruct (last_line l i); eauto.
  - destruct (IH X) as (x & ->). eauto.
Qed.

Lemma fresh_calm tz kn df v sp e : import_spec tz kn df v = Ok sp -> fresh sp e -> calm v (s_organizer sp) -> will_modify sp e = Ok false.
Proof.
  intros ES (_ & e0 & n & E) [ON C]. pose proof (set_attrs_twice _ _ _ _ E) as AT.
  assert (O1 : e_organizer e = s_organizer sp).
  { destruct (set_on_object_attrs sp e0) as (_ & _ & _ & _ & _ & _ & _ & _ & _ & _ & _ & _ & _ & O). rewrite E in O. exact O. }
  destruct (set_on_object_parts tz kn df v sp e0 e n ES E) as (AK & AR & P3 & P4). rewrite O1 in P3, P4.
  assert (LINE : forall i ps ro, In (i, ps, ro) (v_attendees v) -> dget (e_state e) i = Some (text ps "NEEDS-ACTION")
     /\ dget (e_role e) i = Some "REQ-PARTICIPANT"%string).
  { intros i ps ro H. rewrite P3, P4. unfold said_status, said_role. destruct (in_last_line _ _ _ _ H) as ([ps' ro'] & L). rewrite L.
    apply last_line_in in L. cbn in L. destruct (C _ _ _ H) as (_ & A & _). rewrite (A _ _ L). split; [reflexivity|].
    destruct (C _ _ _ L) as (-> & _). reflexivity. }
  apply will_modify_false. split; [|split].
  - rewrite <- AT. unfold attrs_agree, set_attrs. cbn. repeat (split; [reflexivity|]). repeat split; auto using opt_rule_refl.
  - destruct (s_organizer sp) as [o|] eqn:SO; [|congruence]. exists o. split; [reflexivity|]. split; [exact O1|].
    destruct (last_line (v_attendees v) o) as [[ps ro]|] eqn:L.
    + apply last_line_in in L. cbn in L. destruct (LINE _ _ _ L) as [-> ->]. destruct (C _ _ _ L) as (_ & _ & ->); auto.
    + rewrite P3, P4. unfold said_status, said_role. rewrite L, opt_str_eqb_id, String.eqb_refl. auto.
  - rewrite (import_spec_entries _ _ _ _ _ ES). intros a ro st H. apply in_map_iff in H as ([[i ps] ro'] & X & H).
    cbn in X. rewrite (AK _ _ _ H) in X. destruct (LINE _ _ _ H) as [L1 L2]. exists i. split; [congruence|]. split; [congruence|exact L2].
Qed.

Lemma import_again_silent cf s c vs p cr sync s' n : reachable cf s -> NoDup (import_uids vs) ->
  import_cal cf s c (Ok (Some vs)) p cr sync = (s', n, Ok tt) ->
  (forall v u, In v vs -> v_uid v = Some u -> has_event s u = false -> whole_days cf v) ->
  (forall v, In v vs -> exists o, says_organizer (source_knows s) (main_attendee s c) v o /\ calm v o) ->
  forall evs, cal_events s' c p cr = Ok evs -> import_cal cf s' c (Ok (Some vs)) p cr sync = (s', [], Ok tt).
Proof.
  intros RE ND E WD CA evs' E1'. destruct (import_again_core cf s c vs p cr sync s' n RE ND E WD) as (RE' & SK & SM & CORE).
  destruct (CORE evs' E1') as [SET NIL]. unfold import_cal. rewrite sbind_slift, E1', sbind_slift.
  set (known' := nodup string_dec (map e_uid evs')) in *.
  assert (L : import_loop cf s' c known' vs = (s', [], Ok (import_uids vs))).
  { assert (Q : forall l, (forall v, In v l -> In v vs) -> import_loop cf s' c known' l = (s', [], Ok (import_uids l))).
    { induction l as [|v l IH]; intros H; [reflexivity|]. cbn [import_loop].
      destruct (SET v (H v (or_introl eq_refl))) as (u & r & U & D & X).
      assert (ONE : import_one cf s' c known' v = (s', [], Ok u)).
      { unfold import_one. rewrite U. destruct (str_in u known') eqn:K.
        - apply str_in_iff in K. destruct (X K) as (sp & ES & W). unfold import_existing, get_event. rewrite D, sbind_slift, sbind_slift, ES, sbind_slift.
          assert (W' : will_modify sp (obj s' r) = Ok false).
          { destruct W as [W|W]; [exact W|]. destruct (CA v (H v (or_introl eq_refl))) as (o & SO & CO).
            destruct (import_spec_says _ _ _ _ _ ES) as (_ & SO' & _). rewrite SK, SM in SO'.
            assert (o = s_organizer sp). { unfold says_organizer in SO, SO'. destruct (v_organizer v) as [x|]; [destruct (source_knows s x)|]; congruence. }
            subst o. eapply fresh_calm; eauto. }
          rewrite W'. reflexivity.
        - rewrite has_event_dget, D. reflexivity. }
      rewrite ONE. cbn [sbind]. rewrite IH by (intros w Hw; apply H; now right). unfold import_uids. cbn [sbind sret app flat_map]. rewrite U. reflexivity. }
    now apply Q. }
  rewrite L. cbn [sbind]. destruct sync; [|reflexivity]. rewrite NIL by reflexivity. reflexivity.
Qed.
