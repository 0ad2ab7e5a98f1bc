(** Exactly when an import succeeds (C65, C64). *)
From Verif Require Import Base PyDate DateFacts Recurrent CalTime TimeProofs Event Storage ICal System
  QueryProofs EventProofs SpecProofs SystemProofs StoreProofs IdProofs ImportProofs PropEvent PropSystem
  ICalProofs ImportContent ImportTwice PropICal PropImport PropRepeat PropCalendar PropExact PropRound PropAgain PropEdge.
From Coq Require Import ZifyBool.
Ltac Zify.zify_post_hook ::= Z.div_mod_to_equations.
Local Opaque ord2ymd year_of month_of day_of ymd2ord days_in_month is_leap.

(** ** specification *)
(** what a specification can be read from: a start, an end (if any) and a rule
    (if any) that mean something, and an organizer or a main attendee *)
Definition readable_text (cf : config) (s : system) (c : nat) (v : vevent) : Prop :=
  (exists t0 x, v_dtstart v = Some t0 /\ local_time (cf_tz cf) t0 x)
  /\ (forall t1, v_dtend v = Some t1 -> exists x, local_time (cf_tz cf) t1 x)
  /\ (forall rr, v_rrule v = Some rr -> readable rr)
  /\ (exists o, says_organizer (source_knows s) (main_attendee s c) v o).

(** the lines of [v] find everybody as they ask, and as required participants *)
Definition lines_settled (v : vevent) (e : event) : Prop :=
  forall i ps ro, In (i, ps, ro) (v_attendees v) ->
    dget (e_state e) i = Some (text ps "NEEDS-ACTION") /\ dget (e_role e) i = Some "REQ-PARTICIPANT"%string.

(** what a component about an event of the calendar needs: either there is
    nothing to do, or the roles are documented ones and it is not the case that
    all attributes agree and there is no organizer *)
Definition acceptable (cf : config) (s : system) (c : nat) (v : vevent) (e : event) : Prop :=
  readable_text cf s c v /\ all_known (source_knows s) v
  /\ forall sp, import_spec (cf_tz cf) (source_knows s) (main_attendee s c) v = Ok sp ->
     (attrs_agree sp e /\ settled_organizer sp e /\ lines_settled v e)
     \/ (all_roles v /\ ~ (s_organizer sp = None /\ attrs_agree sp e)).

(** ** proofs *)
Lemma float_local tz t x : float_time tz t = Ok x -> local_time tz t x.
Proof.
  destruct t as [d|y|y off]; cbn; [unfold combine; intros E; injection E as <-; lia|congruence|].
  unfold dt_add. change (y + - off) with (y - off). destruct (dt_ok (y - off)) eqn:O1; [|discriminate]. cbn [rbind].
  destruct (dt_ok (y - off + tz (y - off))) eqn:O2; [|discriminate]. intros E. injection E as <-. split; [reflexivity|]. split; [exact O2|lia].
Qed.

Lemma spec_read cf s c v : readable_text cf s c v <->
  exists sp, import_spec (cf_tz cf) (source_knows s) (main_attendee s c) v = Ok sp.
Proof.
  split.
  - intros ((t0 & x & T0 & L0) & T1 & RR & (o & O)). unfold import_spec, dtstart_duration. rewrite T0.
    rewrite (local_float _ _ _ L0). cbn [rbind].
    assert (SDA : exists d, (match v_dtend v with
        | Some e0 => rbind (float_time (cf_tz cf) e0) (fun e => Ok (x, e - x, match t0 with IDate _ => true | _ => false end))
        | None => match v_duration v with Some d => Ok (x, d, match t0 with IDate _ => true | _ => false end)
                  | None => Ok (x, 0, match t0 with IDate _ => true | _ => false end) end end)
       = Ok (x, d, match t0 with IDate _ => true | _ => false end)).
    { destruct (v_dtend v) as [t1|]; [|destruct (v_duration v); eauto].
      destruct (T1 t1 eq_refl) as (y & L1). rewrite (local_float _ _ _ L1). cbn. eauto. }
    destruct SDA as (d & ->). cbn [rbind].
    match goal with |- context [rbind ?r _] => assert (OO : r = Ok o) end.
    { revert O. unfold says_organizer. destruct (v_organizer v) as [i|]; [|auto]. destruct (source_knows s i); [intros ->; reflexivity|auto]. }
    rewrite OO. cbn [rbind]. destruct (v_rrule v) as [rr|].
    + destruct (C54_readable_imports rr (RR rr eq_refl)) as (r & ->). cbn [rbind]. eexists. reflexivity.
    + cbn [rbind]. eexists. reflexivity.
  - intros (sp & E). unfold import_spec in E. destruct (dtstart_duration (cf_tz cf) v) as [[[x d] a]| |] eqn:T; try discriminate. cbn [rbind] in E.
    match type of E with rbind ?r _ = _ => destruct r as [o| |] eqn:O; try discriminate end. cbn [rbind] in E.
    match type of E with rbind ?r _ = _ => destruct r as [q| |] eqn:R; try discriminate end. clear E.
    unfold dtstart_duration in T. destruct (v_dtstart v) as [t0|] eqn:T0; [|discriminate].
    destruct (float_time (cf_tz cf) t0) as [y| |] eqn:F0; try discriminate. cbn [rbind] in T.
    unfold readable_text. rewrite T0. split; [exists t0, y; split; [reflexivity|now apply float_local]|].
    split; [|split].
    + intros t1 T1. rewrite T1 in T. destruct (float_time (cf_tz cf) t1) as [z| |] eqn:F1; try discriminate. exists z. now apply float_local.
    + intros rr RR. rewrite RR in R. destruct (import_rule rr) as [r| |] eqn:IR; try discriminate. apply C54_imports_iff. eauto.
    + exists o. unfold says_organizer. destruct (v_organizer v) as [i|]; [|exact O]. destruct (source_knows s i); [congruence|exact O].
Qed.

Lemma settled_lines_iff known v e : all_known known v ->
  (Forall (settled_entry e) (map (line_entry known) (v_attendees v)) <-> lines_settled v e).
Proof.
  unfold all_known, lines_settled. induction (v_attendees v) as [|[[i ps] ro] l IH]; intros K; cbn [map].
  - split; [intros _ ? ? ? []|constructor].
  - rewrite Forall_cons_iff, IH by (intros; eapply K; right; eassumption). cbn [line_entry settled_entry]. rewrite (K i ps ro (or_introl eq_refl)). split.
    + intros ((j & J & S & R) & H) i' ps' ro' [X|X]; [|eapply H; exact X]. assert (i = j) by congruence. subst j. injection X as <- <- <-. auto.
    + intros H. split; [|intros; eapply H; right; eassumption]. exists i. split; [reflexivity|]. apply (H i ps ro). now left.
Qed.

Lemma lines_go cf s c v sp e : all_known (source_knows s) v -> all_roles v ->
  import_spec (cf_tz cf) (source_knows s) (main_attendee s c) v = Ok sp -> exists e', set_on_object sp e = (e', [], Ok tt).
Proof.
  intros AK AR ES. rewrite set_on_object_eq, (import_spec_entries _ _ _ _ _ ES).
  match goal with |- context [set_attendees ?x _] => generalize x end. unfold all_known, all_roles in *.
  induction (v_attendees v) as [|[[i ps] ro] l IH]; intros e0; [eexists; reflexivity|].
  cbn [map line_entry set_attendees]. rewrite (AK i ps ro (or_introl eq_refl)).
  change (mbind (set_role e0 (Some i) (text ro "REQ-PARTICIPANT")) (fun e1 => set_status_raw e1 (Some i) (Some (text ps "NEEDS-ACTION"))))
      with (entry_step e0 (Some i) (text ro "REQ-PARTICIPANT") (Some (text ps "NEEDS-ACTION"))).
  rewrite entry_step_ok by (exact (AR i ps ro (or_introl eq_refl))). rewrite mbind_ok.
  match goal with |- context [set_attendees ?x _] => destruct (IH (fun i ps ro H => AK i ps ro (or_intror H)) (fun i ps ro H => AR i ps ro (or_intror H)) x) as (e' & ->) end.
  eexists. reflexivity.
Qed.

(** one component about a known event *)
Lemma accepted cf s c v e : acceptable cf s c v e <->
  exists sp b, import_spec (cf_tz cf) (source_knows s) (main_attendee s c) v = Ok sp /\ will_modify sp e = Ok b
    /\ (b = true -> exists e' n, set_on_object sp e = (e', n, Ok tt)).
Proof.
  split.
  - intros (RT & AK & H). apply spec_read in RT as (sp & ES). specialize (H sp ES). pose proof (import_spec_entries _ _ _ _ _ ES) as EN.
    destruct H as [(A & O & L)|(AR & N)].
    + exists sp, false. split; [exact ES|]. split; [|discriminate]. apply C49_no_iff. split; [exact A|]. split; [exact O|]. rewrite EN. now apply settled_lines_iff.
    + destruct (lines_go cf s c v sp e AK AR ES) as (e' & SO).
      destruct (will_modify sp e) as [b|x|] eqn:W.
      * exists sp, b. split; [exact ES|]. split; [exact W|]. eauto.
      * exfalso. apply C49_raises_iff in W as (_ & A & [O|(_ & l1 & ro & st & l2 & EQ & _)]); [tauto|]. rewrite EN in EQ.
        assert (X : In (None, ro, st) (map (line_entry (source_knows s)) (v_attendees v))) by (rewrite EQ; apply in_app_iff; right; now left).
        apply in_map_iff in X as ([[i ps] r] & X & Y). cbn in X. rewrite (AK _ _ _ Y) in X. discriminate.
      * exfalso. destruct (C49_answers sp e) as [(b & X)|X]; congruence.
  - intros (sp & b & ES & W & SO). pose proof (import_spec_entries _ _ _ _ _ ES) as EN.
    assert (RT : readable_text cf s c v) by (apply spec_read; eauto). split; [exact RT|].
    destruct b.
    + destruct (SO eq_refl) as (e' & n & X). rewrite set_on_object_eq, EN in X. destruct (set_lines_ok _ _ _ _ _ X) as [L _].
      split; [intros i ps ro Hi; eapply L; exact Hi|]. intros sp' ES'. assert (sp' = sp) by congruence. subst sp'. right.
      split; [intros i ps ro Hi; eapply L; exact Hi|]. intros [O A].
      assert (Y : will_modify sp e = Raise AttributeError) by (apply C49_raises_iff; auto). congruence.
    + apply C49_no_iff in W as (A & O & L). rewrite EN in L.
      assert (AK : all_known (source_knows s) v).
      { intros i ps ro Hi. apply (in_map (line_entry (source_knows s))) in Hi. apply (proj1 (Forall_forall _ _) L) in Hi. cbn in Hi.
        destruct (source_knows s i); [reflexivity|]. destruct Hi as (j & J & _). discriminate. }
      split; [exact AK|]. intros sp' ES'. assert (sp' = sp) by congruence. subst sp'. left. split; [exact A|]. split; [exact O|]. now apply settled_lines_iff in L.
Qed.

Lemma new_accepted cf s c v u : well_formed cf s c false v <->
  exists sp e, import_spec (cf_tz cf) (source_knows s) (main_attendee s c) v = Ok sp /\ new_event u sp = Ok e.
Proof.
  split.
  - intros W. destruct (import_spec_total cf s c false v W) as (sp & ES & _). destruct (set_on_object_total cf s c false v sp (blank u) W ES) as (e' & SO).
    exists sp. unfold new_event. rewrite SO. eauto.
  - intros (sp & e & ES & NE). unfold new_event in NE. destruct (set_on_object sp (blank u)) as [[e' n] [[]| |]] eqn:SO; try discriminate.
    rewrite set_on_object_eq, (import_spec_entries _ _ _ _ _ ES) in SO. destruct (set_lines_ok _ _ _ _ _ SO) as [L _].
    destruct (proj2 (spec_read cf s c v) (ex_intro _ sp ES)) as (A1 & A2 & A3 & (o & A4)).
    split; [exact A1|]. split; [exact A2|]. split; [exact A3|]. split; [exists o; split; [exact A4|discriminate]|].
    split; [intros i ps ro Hi; eapply L; exact Hi|intros i ps ro Hi; eapply L; exact Hi].
Qed.

Lemma loop_accepts cf c known vs : forall s, store_inv s -> (forall k, In k known -> has_event s k = true) -> NoDup (import_uids vs) ->
  (forall v, In v vs -> exists u, v_uid v = Some u
     /\ (forall r, In u known -> dget (sys_store s) u = Some r -> acceptable cf s c v (obj s r))
     /\ (has_event s u = false -> well_formed cf s c false v)) ->
  exists us, srs (import_loop cf s c known vs) = Ok us.
Proof.
  induction vs as [|w vs IH]; intros s I KN ND H; [eexists; reflexivity|]. cbn [import_loop].
  assert (ONE : exists u, v_uid w = Some u /\ srs (import_one cf s c known w) = Ok u).
  { destruct (H w (or_introl eq_refl)) as (u & V & X1 & X2). exists u. split; [exact V|]. unfold import_one. rewrite V.
    destruct (str_in u known) eqn:K.
    - apply str_in_iff in K. pose proof (KN u K) as HE. rewrite has_event_dget in HE. destruct (dget (sys_store s) u) as [r|] eqn:D; [|discriminate].
      destruct (proj1 (accepted cf s c w (obj s r)) (X1 r K eq_refl)) as (sp & b & IS & W & SO). unfold import_existing, get_event.
      rewrite D, sbind_slift, sbind_slift, IS, sbind_slift, W. destruct b; [|reflexivity]. destruct (SO eq_refl) as (e' & n & SO'). unfold on_event. rewrite SO'. reflexivity.
    - destruct (has_event s u) eqn:HE; [reflexivity|]. destruct (proj1 (new_accepted cf s c w u) (X2 eq_refl)) as (sp & e & IS & NE).
      unfold import_new. rewrite sbind_slift, IS. unfold create_event. rewrite NE. reflexivity. }
  destruct ONE as (uw & W & E1).
  pose proof (import_one_frame1 cf s c known w) as F1. pose proof (import_one_tracks cf s c known w I) as (I1 & _).
  set (s1 := sst (import_one cf s c known w)) in *.
  assert (ND' : ~ In uw (import_uids vs) /\ NoDup (import_uids vs)).
  { unfold import_uids in ND. cbn [flat_map] in ND. rewrite W in ND. cbn [app] in ND. now inversion ND. }
  destruct ND' as [N1 N2]. unfold import_uids in F1. cbn [flat_map] in F1. rewrite W in F1. cbn [app] in F1.
  assert (KN1 : forall k, In k known -> has_event s1 k = true) by (intros k Hk; eapply frame_has; [exact F1|auto]).
  destruct (IH s1 I1 KN1 N2) as (us & E2).
  - intros v Hv. destruct (H v (or_intror Hv)) as (u & V & X1 & X2). exists u. split; [exact V|].
    assert (NI : ~ In u [uw]) by (intros [<-|[]]; apply N1; now apply (in_uids vs v)).
    destruct (frame_other _ _ s s1 u I F1 NI NI) as [G1 G2]. destruct F1 as (_ & _ & _ & _ & FS & FC). destruct (same_source s s1 c FS FC) as [SK SM].
    split.
    + intros r K D. rewrite G1 in D. specialize (X1 r K D). unfold acceptable, readable_text in *. rewrite SK, SM, (G2 r D). exact X1.
    + rewrite has_event_dget, G1, <- has_event_dget. intros HE. specialize (X2 HE). unfold well_formed in *. rewrite SK, SM. exact X2.
  - exists (uw :: us). unfold s1, sst in E2. destruct (import_one cf s c known w) as [[s2 n2] r2]. unfold srs in *. cbn [fst snd] in *. subst r2. cbn [sbind].
    destruct (import_loop cf s2 c known vs) as [[s3 n3] r3]. cbn [snd] in E2. subst r3. reflexivity.
Qed.

(** ** theorems *)
(** An import succeeds exactly if the calendar can be listed, every component has
    an id, those about events of the calendar are acceptable and those about new
    events are well formed; nothing is asked of the others. *)
Theorem C65_imports_iff cf s c vs p cr sync : reachable cf s -> NoDup (import_uids vs) ->
  (srs (step cf s (OImport c (Ok (Some vs)) p cr sync)) = Ok tt <->
   (exists evs, cal_events s c p cr = Ok evs)
   /\ forall v, In v vs -> exists u, v_uid v = Some u
      /\ (forall r, visible s c p cr u -> get_event s u = Ok r -> acceptable cf s c v (obj s r))
      /\ (has_event s u = false -> well_formed cf s c false v)).
Proof.
  intros R ND. pose proof (reachable_store cf s R) as H. split.
  - intros E. destruct (step cf s (OImport c (Ok (Some vs)) p cr sync)) as [[s' n] x] eqn:ST. unfold srs in E. cbn [snd] in E. subst x. split.
    + cbn [step] in ST. destruct (import_cases cf s c (Ok (Some vs)) p cr sync) as [(evs & _ & X & _)|(_ & _ & X)]; [eauto|].
      exfalso. apply (X vs eq_refl). now rewrite ST.
    + destruct (C85_import_exact cf s c vs p cr sync s' n R ND ST) as (ns & del & _ & FA & _ & _).
      destruct (forall2_in _ _ _ FA) as [FA1 _]. intros v Hv. destruct (FA1 v Hv) as (nv & _ & (u & r & V & G & O)). exists u. split; [exact V|]. split.
      * intros r' VIS G'. apply accepted. destruct O as [(_ & G0 & sp & IS & O)|[(NEW & _)|(NV & _)]]; [| |contradiction].
        -- assert (r' = r) by congruence. subst r'. destruct O as [(W & _)|(W & (m & SO) & _)]; [exists sp, false|exists sp, true]; (split; [exact IS|]; split; [exact W|]); [discriminate|eauto].
        -- unfold has_event in NEW. rewrite G' in NEW. discriminate.
      * intros HE. destruct O as [(_ & G0 & _)|[(NEW & sp & IS & NE & _)|(NV & G0 & _)]].
        -- unfold has_event in HE. rewrite G0 in HE. discriminate.
        -- apply (new_accepted cf s c v u). eauto.
        -- unfold has_event in HE. rewrite G0 in HE. discriminate.
  - intros ((evs & E) & W). cbn [step]. unfold import_cal. rewrite sbind_slift, E, sbind_slift.
    destruct (loop_accepts cf c (nodup string_dec (map e_uid evs)) vs s H (known_stored s c p cr evs H E) ND) as (us & X).
    { intros v Hv. destruct (W v Hv) as (u & U & W1 & W2). exists u. split; [exact U|]. split; [|exact W2]. intros r K D. apply W1.
      - apply known_in in K as (e & He & <-). exists evs, e. auto.
      - unfold get_event. now rewrite D. }
    pose proof (import_loop_frame (nodup string_dec (map e_uid evs)) (import_uids vs) cf c vs (fun u Hu => Hu) s) as F.
    pose proof (import_loop_tracks cf c (nodup string_dec (map e_uid evs)) vs s H) as (I1 & _).
    destruct (import_loop cf s c (nodup string_dec (map e_uid evs)) vs) as [[s1 n1] r1]. unfold srs, sst in *. cbn in X, F, I1. subst r1.
    cbn [sbind]. destruct sync; [|reflexivity].
    destruct (delete_loop_ok (filter (fun u => negb (str_in u us)) (nodup string_dec (map e_uid evs))) s1 I1) as (s2 & -> & _).
    { apply NoDup_filter, NoDup_nodup. }
    { intros u Hu. apply filter_In in Hu as [Hu _]. eapply frame_has; [exact F|]. now apply (known_stored s c p cr evs H E). }
    reflexivity.
Qed.
Print Assumptions C65_imports_iff.

(** An undocumented role is refused in a component that changes something, and
    overlooked in one that changes nothing. *)
Example C65_iff_case :
  let v title role := (mkV (Some "n1") (Some (IFloat (p_at 732500 9))) None (Some HOUR) (Some title) None None None None
     [("bob", None, role)] [] None None None None)%string in
  let imp s v := step cf0 s (OImport 0 (Ok (Some [v])) (None, None) None false) in
  let s1 := sst (imp (run cf0 office) (v "New" None)%string) in
  srs (imp (run cf0 office) (v "New" None)%string) = Ok tt
  /\ acceptable cf0 s1 0 (v "New" (Some "BOSS"))%string (obj s1 3)
  /\ ~ acceptable cf0 s1 0 (v "Other" (Some "BOSS"))%string (obj s1 3)
  /\ srs (imp s1 (v "New" (Some "BOSS"))%string) = Ok tt
  /\ srs (imp s1 (v "Other" (Some "BOSS"))%string) <> Ok tt.
Proof.
  cbv zeta. split; [vm_compute; reflexivity|]. split.
  - apply accepted. eexists. exists false. split; [vm_compute; reflexivity|]. split; [vm_compute; reflexivity|discriminate].
  - split; [|split; [vm_compute; reflexivity|vm_compute; discriminate]].
    intros X. apply accepted in X as (sp & b & IS & W & SO). vm_compute in IS. injection IS as <-. vm_compute in W. injection W as <-.
    destruct (SO eq_refl) as (e' & n & Y). vm_compute in Y. discriminate.
Qed.
