(** What the attendee list of a specification does to an event (C81), and with it
    the creator's own participation (C44), exactly. *)
From Verif Require Import Base PyDate DateFacts Recurrent CalTime TimeProofs Event Storage ICal System
  QueryProofs BlockProofs EventProofs SpecProofs SystemProofs StoreProofs IdProofs ImportProofs PropEvent PropSystem.
From Coq Require Import ZifyBool.
Ltac Zify.zify_post_hook ::= Z.div_mod_to_equations.
Local Opaque ord2ymd year_of month_of day_of ymd2ord days_in_month is_leap.

(** * C81 *)
(** the last entry that names the person: their role, and their status or the
    wish that they take part no more *)
Fixpoint last_said (l : list (attendee * string * option string)) (i : string) : option (string * option string) :=
  match l with
  | [] => None
  | (a, ro, st) :: r =>
      match last_said r i with
      | Some x => Some x
      | None => match a with Some j => if String.eqb j i then Some (ro, st) else None | None => None end
      end
  end.

(** participation after these entries, [before] them *)
Definition status_then (before : option string) (l : list (attendee * string * option string)) (i : string) : option string :=
  match last_said l i with Some (_, st) => st | None => before end.
Definition role_then (before : option string) (l : list (attendee * string * option string)) (i : string) : option string :=
  match last_said l i with Some (ro, Some _) => Some ro | Some (_, None) => None | None => before end.

(** what the organizer line of a specification alone does *)
Definition status_as (sp : spec) (e : event) (i : string) : option string :=
  match s_organizer sp with
  | Some o => if String.eqb o i then Some "ACCEPTED"%string else dget (e_state e) i
  | None => dget (e_state e) i
  end.
Definition role_as (sp : spec) (e : event) (i : string) : option string :=
  match s_organizer sp with
  | Some o => if String.eqb o i then Some "REQ-PARTICIPANT"%string else dget (e_role e) i
  | None => dget (e_role e) i
  end.

Definition four_roles : list string := ["CHAIR"; "REQ-PARTICIPANT"; "OPT-PARTICIPANT"; "NON-PARTICIPANT"]%string.

(** why an entry is refused *)
Inductive refused (before : string -> option string) (l1 : list (attendee * string * option string)) :
  attendee -> string -> option string -> exn -> Prop :=
| bad_role a ro st : ~ In ro four_roles -> refused before l1 a ro st AssertionError
| nobody ro st : In ro four_roles -> refused before l1 None ro st AttributeError
| not_there i ro : In ro four_roles -> status_then (before i) l1 i = None -> refused before l1 (Some i) ro None KeyError.

Lemma last_said_app l1 l2 i : last_said (l1 ++ l2) i = match last_said l2 i with Some x => Some x | None => last_said l1 i end.
Proof.
  induction l1 as [|[[a ro] st] l1 IH]; cbn [app last_said]; [now destruct (last_said l2 i)|].
  rewrite IH. destruct (last_said l2 i); reflexivity.
Qed.

Lemma entry_exact e a ro st : dicts_ok e ->
  (exists i e', a = Some i /\ In ro four_roles /\ (st = None -> dget (e_state e) i <> None)
     /\ entry_step e a ro st = (e', [], Ok tt) /\ dicts_ok e'
     /\ forall j, dget (e_state e') j = (if String.eqb i j then st else dget (e_state e) j)
                  /\ dget (e_role e') j = (if String.eqb i j then match st with Some _ => Some ro | None => None end else dget (e_role e) j))
  \/ (exists e' x, entry_step e a ro st = (e', [], Raise x) /\ refused (fun i => dget (e_state e) i) [] a ro st x
     /\ forall j, dget (e_state e') j = dget (e_state e) j
                  /\ dget (e_role e') j = match x, a with KeyError, Some i => if String.eqb i j then Some ro else dget (e_role e) j
                                                         | _, _ => dget (e_role e) j end).
Proof.
  intros D. destruct (str_in ro roles) eqn:R.
  2:{ right. exists e, AssertionError. unfold entry_step, set_role. rewrite R. cbn. split; [reflexivity|]. split; [|auto].
      constructor. intros X. change four_roles with roles in X. apply str_in_iff in X. congruence. }
  assert (R' : In ro four_roles) by (change four_roles with roles; now apply str_in_iff).
  destruct a as [i|].
  2:{ right. exists e, AttributeError. unfold entry_step, set_role. rewrite R. cbn. split; [reflexivity|]. split; [|auto]. now constructor. }
  destruct D as [D1 D2].
  destruct st as [s|].
  - left. exists i. eexists. split; [reflexivity|]. split; [exact R'|]. split; [discriminate|]. split; [apply entry_step_ok; exact R'|].
    split; [split; cbn; now apply dset_nodup|]. intros j. cbn. rewrite !dget_dset, (String.eqb_sym j i). destruct (String.eqb i j); auto.
  - destruct (dget (e_state e) i) as [s|] eqn:S.
    + left. exists i.
      assert (E : entry_step e (Some i) ro None
        = (with_role (with_state (with_role e (dset (e_role e) i ro)) (drem (e_state e) i)) (drem (dset (e_role e) i ro) i), [], Ok tt)).
      { unfold entry_step, set_role. rewrite R. cbn [attendee_id mbind]. unfold set_status_raw, ddel. cbn [attendee_id e_state with_role]. rewrite S.
        cbn [e_role with_state with_role]. rewrite dget_dset, String.eqb_refl. reflexivity. }
      rewrite E. eexists. split; [reflexivity|]. split; [exact R'|]. split; [congruence|]. split; [reflexivity|]. split.
      * split; cbn; apply drem_nodup; [exact D1|now apply dset_nodup].
      * intros j. cbn. rewrite !dget_drem; [|now apply dset_nodup|exact D1]. rewrite dget_dset, (String.eqb_sym j i). destruct (String.eqb i j); auto.
    + right. exists (with_role e (dset (e_role e) i ro)), KeyError. split; [|split].
      * unfold entry_step, set_role. rewrite R. cbn [attendee_id mbind]. unfold set_status_raw, ddel. cbn [attendee_id e_state with_role]. rewrite S. reflexivity.
      * constructor; [exact R'|]. exact S.
      * intros j. cbn. rewrite dget_dset, (String.eqb_sym j i). destruct (String.eqb i j); auto.
Qed.

Lemma entries_exact l : forall e, dicts_ok e ->
  (exists e', set_attendees e l = (e', [], Ok tt)
     /\ (forall a ro st, In (a, ro, st) l -> a <> None /\ In ro four_roles)
     /\ (forall l1 i ro l2, l = l1 ++ (Some i, ro, None) :: l2 -> status_then (dget (e_state e) i) l1 i <> None)
     /\ forall j, dget (e_state e') j = status_then (dget (e_state e) j) l j /\ dget (e_role e') j = role_then (dget (e_role e) j) l j)
  \/ (exists e' x l1 a ro st l2, set_attendees e l = (e', [], Raise x) /\ l = l1 ++ (a, ro, st) :: l2
     /\ refused (fun i => dget (e_state e) i) l1 a ro st x
     /\ forall j, dget (e_state e') j = status_then (dget (e_state e) j) l1 j
          /\ dget (e_role e') j = match x, a with KeyError, Some i => if String.eqb i j then Some ro else role_then (dget (e_role e) j) l1 j
                                                 | _, _ => role_then (dget (e_role e) j) l1 j end).
Proof.
  induction l as [|[[a ro] st] l IH]; intros e D.
  - left. exists e. split; [reflexivity|]. split; [intros ? ? ? []|]. split; [intros [|? ?] ? ? ? X; discriminate|]. auto.
  - cbn [set_attendees].
    change (mbind (set_role e a ro) (fun e1 => set_status_raw e1 a st)) with (entry_step e a ro st).
    destruct (entry_exact e a ro st D) as [(i & e1 & -> & R & P & E & D' & V)|(e1 & x & E & RF & V)].
    2:{ right. exists e1, x, [], a, ro, st, l. rewrite E. cbn [mbind]. split; [reflexivity|]. split; [reflexivity|]. split; [exact RF|]. exact V. }
    rewrite E. cbn [mbind]. 
    assert (STEP : forall j k, status_then (dget (e_state e1) j) k j = status_then (dget (e_state e) j) ((Some i, ro, st) :: k) j
                   /\ role_then (dget (e_role e1) j) k j = role_then (dget (e_role e) j) ((Some i, ro, st) :: k) j).
    { intros j k. destruct (V j) as [V1 V2]. unfold status_then, role_then. cbn [last_said].
      destruct (last_said k j) as [[? ?]|]; [auto|]. rewrite V1, V2. destruct (String.eqb i j); [destruct st|]; auto. }
    destruct (IH e1 D') as [(e2 & E2 & H1 & H2 & H3)|(e2 & x & l1 & a' & ro' & st' & l2 & E2 & -> & RF & H3)]; rewrite E2.
    + left. exists e2. split; [reflexivity|]. split; [|split].
      * intros a' ro' st' [X|X]; [|now apply (H1 a' ro' st')]. injection X as <- <- <-. split; [discriminate|exact R].
      * intros l1 i' ro' l2 X. destruct l1 as [|b l1]; cbn [app] in X.
        -- injection X as -> -> -> ->. unfold status_then. cbn [last_said]. now apply P.
        -- injection X as X0 X. subst b. pose proof (H2 l1 i' ro' l2 X) as Y. rewrite (proj1 (STEP i' l1)) in Y. exact Y.
      * intros j. destruct (H3 j) as [-> ->]. exact (STEP j l).
    + right. exists e2, x, ((Some i, ro, st) :: l1), a', ro', st', l2. split; [reflexivity|]. split; [reflexivity|]. split.
      * inversion RF as [? ? ? RR|? ? RR|k ? RR NN]; subst; constructor; auto. now rewrite <- (proj1 (STEP k l1)).
      * intros j. destruct (H3 j) as [-> ->]. destruct (STEP j l1) as [-> ->]. split; reflexivity.
Qed.

Lemma start_of_entries sp e : dicts_ok e ->
  let e0 := match s_organizer sp with Some i => organize (set_attrs sp e) i | None => with_organizer (set_attrs sp e) None end in
  dicts_ok e0 /\ forall j, dget (e_state e0) j = status_as sp e j /\ dget (e_role e0) j = role_as sp e j.
Proof.
  intros D. unfold status_as, role_as. destruct (s_organizer sp) as [o|]; cbv zeta.
  - split; [apply organize_dicts; exact D|]. intros j. cbn. rewrite !dget_dset, (String.eqb_sym j o). destruct (String.eqb o j); auto.
  - split; [exact D|]. auto.
Qed.

(** Applying a specification: when it succeeds, and what it leaves.  Every person
    gets what the last entry about them says; entries cut off by an error have no
    effect, except that someone who was to be removed but is not there is left
    with a role. *)
Theorem C81_entries_exact cf s r sp : reachable cf s -> (r < List.length (sys_heap s))%nat ->
  let e := obj s r in let l := s_attendees sp in
  exists s', (step cf s (OSpecify r sp) = (s', [], Ok tt)
      /\ (forall a ro st, In (a, ro, st) l -> a <> None /\ In ro four_roles)
      /\ (forall l1 i ro l2, l = l1 ++ (Some i, ro, None) :: l2 -> status_then (status_as sp e i) l1 i <> None)
      /\ forall i, get_status (obj s' r) (Some i) = Ok (status_then (status_as sp e i) l i)
                   /\ get_role (obj s' r) (Some i) = Ok (role_then (role_as sp e i) l i))
  \/ (exists x l1 a ro st l2, step cf s (OSpecify r sp) = (s', [], Raise x) /\ l = l1 ++ (a, ro, st) :: l2
      /\ refused (status_as sp e) l1 a ro st x
      /\ forall i, get_status (obj s' r) (Some i) = Ok (status_then (status_as sp e i) l1 i)
          /\ get_role (obj s' r) (Some i)
             = Ok (match x, a with KeyError, Some j => if String.eqb j i then Some ro else role_then (role_as sp e i) l1 i
                              | _, _ => role_then (role_as sp e i) l1 i end)).
Proof.
  intros H L e l. cbn [step]. unfold on_event. fold e.
  destruct (start_of_entries sp e (reachable_dicts_ok cf s r H)) as [D V]. cbv zeta in D, V. rewrite set_on_object_eq.
  assert (OB : forall e1, obj (with_heap s (replace_nth r (sys_heap s) e1)) r = e1).
  { intros e1. rewrite obj_heap, replace_nth_get, Nat.eqb_refl. apply Nat.ltb_lt in L. now rewrite L. }
  set (e0 := match s_organizer sp with Some i => organize (set_attrs sp e) i | None => with_organizer (set_attrs sp e) None end) in *.
  destruct (entries_exact (s_attendees sp) e0 D) as [(e1 & -> & H1 & H2 & H3)|(e1 & x & l1 & a & ro & st & l2 & -> & EQ & RF & H3)].
  - exists (with_heap s (replace_nth r (sys_heap s) e1)). left. split; [reflexivity|]. split; [exact H1|]. split.
    + intros l1 i ro l2 X. rewrite <- (proj1 (V i)). exact (H2 l1 i ro l2 X).
    + intros i. rewrite OB. unfold get_status, get_role. cbn [attendee_id rbind]. destruct (H3 i) as [-> ->]. destruct (V i) as [-> ->]. auto.
  - exists (with_heap s (replace_nth r (sys_heap s) e1)). right. exists x, l1, a, ro, st, l2. split; [reflexivity|]. split; [exact EQ|]. split.
    + inversion RF as [? ? ? RR|? ? RR|k ? RR NN]; subst; constructor; auto. now rewrite <- (proj1 (V k)).
    + intros i. rewrite OB. unfold get_status, get_role. cbn [attendee_id rbind]. destruct (H3 i) as [-> ->]. destruct (V i) as [-> ->]. auto.
Qed.
Print Assumptions C81_entries_exact.

(** the two outcomes exclude each other: a specification succeeds exactly when no
    entry is refused *)
Theorem C81_succeeds_iff cf s r sp : reachable cf s -> (r < List.length (sys_heap s))%nat ->
  (srs (step cf s (OSpecify r sp)) = Ok tt <->
   forall l1 a ro st l2 x, s_attendees sp = l1 ++ (a, ro, st) :: l2 -> ~ refused (status_as sp (obj s r)) l1 a ro st x).
Proof.
  intros H L. destruct (C81_entries_exact cf s r sp H L) as (s' & [(E & H1 & H2 & _)|(x & l1 & a & ro & st & l2 & E & EQ & RF & _)]);
    rewrite E; unfold srs; cbn [snd]; split; try discriminate; auto.
  - intros _ l1 a ro st l2 x EQ RF.
    assert (IN : In (a, ro, st) (s_attendees sp)) by (rewrite EQ; apply in_app_iff; right; now left).
    destruct (H1 a ro st IN) as [N1 N2]. inversion RF as [? ? ? RR|? ? RR|k ? RR NN]; subst; [contradiction|congruence|].
    exact (H2 l1 k ro l2 EQ NN).
  - intros X. exfalso. exact (X l1 a ro st l2 x EQ RF).
Qed.
Print Assumptions C81_succeeds_iff.

(** three entries for Bob, the last one asking them to leave, and one for someone
    who is not there *)
Example C81_case : exists s', let s := run cf0 office in
  step cf0 s (OSpecify 0 (p_spec (p_at 732500 9) (Some HOUR) false None
    [(bob, "CHAIR"%string, Some "TENTATIVE"%string); (ann, "OPT-PARTICIPANT"%string, Some "MAYBE"%string);
     (bob, "CHAIR"%string, None); (Some "zoe"%string, "CHAIR"%string, None); (ann, "CHAIR"%string, None)])) = (s', [], Raise KeyError)
  /\ get_status (obj s' 0) bob = Ok None /\ get_role (obj s' 0) bob = Ok None
  /\ get_status (obj s' 0) ann = Ok (Some "MAYBE"%string) /\ get_role (obj s' 0) ann = Ok (Some "OPT-PARTICIPANT"%string)
  /\ get_status (obj s' 0) (Some "zoe"%string) = Ok None /\ get_role (obj s' 0) (Some "zoe"%string) = Ok (Some "CHAIR"%string).
Proof. eexists. cbv zeta. split; [vm_compute; reflexivity|]. vm_compute. auto 10. Qed.

(** * New events *)
Theorem C81_new_exact cf s o uid sp s' u k :
  (exists now, o = OCreate uid sp now) \/ (exists i sp0 now, o = OAttendeeCreate i sp0 now /\ sp = with_spec_organizer sp0 i) ->
  step cf s o = (s', [NCreated u], Ok tt) -> get_event s' u = Ok k ->
  forall i, get_status (obj s' k) (Some i)
              = Ok (status_then (if opt_str_eqb (s_organizer sp) (Some i) then Some "ACCEPTED"%string else None) (s_attendees sp) i)
            /\ get_role (obj s' k) (Some i)
              = Ok (role_then (if opt_str_eqb (s_organizer sp) (Some i) then Some "REQ-PARTICIPANT"%string else None) (s_attendees sp) i).
Proof.
  intros O E0 G i.
  assert (C : exists uid' now, drop (create_event cf s uid' sp now) = (s', [NCreated u], Ok tt)).
  { destruct O as [(now & ->)|(j & sp0 & now & -> & ->)]; cbn [step] in E0; eauto. }
  destruct C as (uid' & now & C). unfold drop in C.
  destruct (create_spec cf s uid' sp now) as [(r & e & E & R & NE & U)|(_ & _ & X)].
  2:{ exfalso. destruct (create_event cf s uid' sp now) as [[s1 n1] r1]. unfold srs in X. cbn in X.
      destruct r1 as [r1| |]; [now apply (X r1)|discriminate|discriminate]. }
  rewrite E in C. injection C as <- EU. unfold get_event in G. cbn [sys_store] in G. rewrite EU, dget_dset, String.eqb_refl in G. injection G as <-.
  unfold obj. cbn [sys_heap]. assert (O' : nth r (sys_heap s ++ [e]) (blank "") = e) by (subst r; now rewrite app_nth2, Nat.sub_diag by lia). rewrite O'.
  destruct (new_event_eq _ _ _ NE) as (e0 & n0 & E1 & ->).
  assert (Q : dget (e_state e0) i = status_then (if opt_str_eqb (s_organizer sp) (Some i) then Some "ACCEPTED"%string else None) (s_attendees sp) i
    /\ dget (e_role e0) i = role_then (if opt_str_eqb (s_organizer sp) (Some i) then Some "REQ-PARTICIPANT"%string else None) (s_attendees sp) i).
  { match type of E1 with set_on_object _ ?b = _ => assert (DB : dicts_ok b) by (split; constructor);
      destruct (start_of_entries sp b DB) as [D V] end.
    cbv zeta in D, V. rewrite set_on_object_eq in E1.
    match type of E1 with set_attendees ?z _ = _ => destruct (entries_exact (s_attendees sp) z D) as
      [(e1 & E2 & _ & _ & H3)|(e1 & x & l1 & a & ro & st & l2 & E2 & _)] end; rewrite E2 in E1; [|discriminate].
    injection E1 as <- _. destruct (H3 i) as [-> ->]. destruct (V i) as [-> ->]. unfold status_as, role_as.
    destruct (s_organizer sp) as [o'|]; cbn [opt_str_eqb]; [destruct (String.eqb o' i); auto|auto]. }
  unfold get_status, get_role. cbn [attendee_id rbind].
  destruct (s_allday sp); [rewrite allday_state, allday_role|]; destruct Q as [-> ->]; auto.
Qed.
Print Assumptions C81_new_exact.

(** * C44 *)
(** the creator: accepted and required, unless the attendees given say otherwise;
    they see the event among their own unless the last entry removes them *)
Theorem C44_creator_exact cf s i sp now s' n : step cf s (OAttendeeCreate i sp now) = (s', n, Ok tt) ->
  exists u k, n = [NCreated u] /\ get_event s' u = Ok k
    /\ get_status (obj s' k) (Some i) = Ok (status_then (Some "ACCEPTED"%string) (s_attendees sp) i)
    /\ get_role (obj s' k) (Some i) = Ok (role_then (Some "REQ-PARTICIPANT"%string) (s_attendees sp) i)
    /\ exists l, attendee_events (stored s') (Some i) (None, None) None = Ok l
       /\ (In (obj s' k) l <-> forall ro, last_said (s_attendees sp) i <> Some (ro, None)).
Proof.
  intros E. pose proof E as E0. destruct (C44_creator_organizes cf s i sp now s' n E) as (u & k & -> & G & _).
  exists u, k. split; [reflexivity|]. split; [exact G|].
  assert (O : (exists now0, OAttendeeCreate i sp now = OCreate None (with_spec_organizer sp i) now0)
     \/ (exists i0 sp0 now0, OAttendeeCreate i sp now = OAttendeeCreate i0 sp0 now0 /\ with_spec_organizer sp i = with_spec_organizer sp0 i0))
    by (right; exists i, sp, now; auto).
  destruct (C81_new_exact cf s _ None _ s' u k O E0 G i) as [Q1 Q2]. cbn [s_organizer s_attendees with_spec_organizer opt_str_eqb] in Q1, Q2.
  rewrite String.eqb_refl in Q1, Q2. split; [exact Q1|]. split; [exact Q2|].
  destruct (attendee_events_unbounded (stored s') i) as (l & L1 & L2). exists l. split; [exact L1|]. rewrite L2.
  unfold get_status in Q1. cbn [attendee_id rbind] in Q1. injection Q1 as Q1. rewrite Q1. unfold status_then.
  assert (ST : In (obj s' k) (stored s')).
  { unfold stored. apply in_map_iff. exists (u, k). split; [reflexivity|]. unfold get_event in G.
    destruct (dget (sys_store s') u) as [k'|] eqn:D; [|discriminate]. injection G as ->. now apply dget_in. }
  destruct (last_said (s_attendees sp) i) as [[ro [st|]]|]; (split; [intros [_ X] ro' Y|intros X; split; [exact ST|]]); try congruence.
  exfalso. now apply (X ro).
Qed.
Print Assumptions C44_creator_exact.

Example C44_creator_case :
  let sp := p_spec (p_at 732500 9) None false None [(ann, "CHAIR"%string, Some "TENTATIVE"%string); (ann, "CHAIR"%string, None)] in
  srs (step cf0 (run cf0 office) (OAttendeeCreate "ann" sp 0)) = Ok tt
  /\ last_said (s_attendees sp) "ann" = Some ("CHAIR"%string, None).
Proof. vm_compute. auto. Qed.

(** * C40 *)
(** the documented statuses, and where any other one comes from: an entry of a
    specification or a line of an imported text that gives it to that person *)
Definition five_statuses : list string := ["NEEDS-ACTION"; "ACCEPTED"; "DECLINED"; "TENTATIVE"; "DELEGATED"]%string.

Definition gives (o : op) (i st : string) : Prop :=
  match o with
  | OCreate _ sp _ | OAttendeeCreate _ sp _ | OSpecify _ sp => exists ro, In (Some i, ro, Some st) (s_attendees sp)
  | OImport _ (Ok (Some vs)) _ _ _ => exists v ro, In v vs /\ In (i, Some st, ro) (v_attendees v)
  | _ => False
  end.

Definition statuses_in (K : string -> string -> Prop) (e : event) : Prop :=
  dicts_ok e /\ forall i st, dget (e_state e) i = Some st -> In st five_statuses \/ K i st.
Definition spec_in (K : string -> string -> Prop) (sp : spec) : Prop :=
  forall i ro st, In (Some i, ro, Some st) (s_attendees sp) -> In st five_statuses \/ K i st.

Lemma keeps_in K : keeps (statuses_in K) (spec_in K).
Proof.
  assert (ROLE : forall e a ro, statuses_in K e -> statuses_in K (mev (set_role e a ro))).
  { intros e a ro [D R]. split; [now apply set_role_dicts|]. now rewrite set_role_state. }
  constructor.
  - intros u. split; [split; constructor|]. intros i ro. discriminate.
  - auto.
  - intros e [[D1 D2] R]. unfold statuses_in, dicts_ok. rewrite allday_role, allday_state. auto.
  - intros sp e O. apply set_on_object_pres; auto.
    + intros e1 i _ [D R]. split; [now apply organize_dicts|]. intros j st. cbn. rewrite dget_dset.
      destruct (String.eqb j i); [|apply R]. intros E. injection E as <-. left. right. now left.
    + intros e1 a ro st Hin H. unfold entry_step. apply (mbind_pres (statuses_in K)); [now apply ROLE|].
      intros e2 [D R]. split; [now apply set_raw_dicts|]. destruct a as [i|]; [|exact R]. destruct st as [st|].
      * intros j ro'. unfold mev. cbn. rewrite dget_dset. destruct (String.eqb_spec j i) as [->|]; [|apply R].
        intros E. injection E as <-. eapply O. exact Hin.
      * intros j ro' X. apply raw_none_state_sub in X; [eauto|exact D].
  - intros l e. apply (invite_pres (statuses_in K)). intros e1 i [[D1 D2] R] _. split; [split; cbn; now apply dset_nodup|].
    intros j ro. cbn. rewrite dget_dset. destruct (String.eqb j i); [|apply R]. intros E. injection E as <-. left. now left.
  - exact ROLE.
Qed.

Lemma statuses_more (K K' : string -> string -> Prop) s : (forall i st, K i st -> K' i st) -> heap_all (statuses_in K) s -> heap_all (statuses_in K') s.
Proof.
  intros H. apply Forall_impl. intros e [D R]. split; [exact D|]. intros i st E. destruct (R i st E); auto.
Qed.

Theorem C40_status_origin cf s h r i st : history cf s h -> get_status (obj s r) (Some i) = Ok (Some st) ->
  In st ["NEEDS-ACTION"; "ACCEPTED"; "DECLINED"; "TENTATIVE"; "DELEGATED"]%string
  \/ exists o n x, In (o, n, x) h /\ gives o i st.
Proof.
  intros H G. set (K := fun (h : list (op * list notification * res unit)) i st => exists o n x, In (o, n, x) h /\ gives o i st).
  assert (A : heap_all (statuses_in (K h)) s).
  { clear G. induction H as [|s h o s' n x H IH E]; [constructor|].
    assert (X : heap_all (statuses_in (K (h ++ [(o, n, x)]))) (sst (step cf s o))).
    2:{ rewrite E in X. exact X. }
    apply (step_keeps (keeps_in (K (h ++ [(o, n, x)])))).
    2:{ revert IH. apply statuses_more. intros j t (o' & n' & x' & H1 & H2). exists o', n', x'. split; [apply in_app_iff; auto|exact H2]. }
    assert (HERE : forall j t, gives o j t -> K (h ++ [(o, n, x)]) j t).
    { intros j t X. exists o, n, x. split; [apply in_app_iff; right; now left|exact X]. }
    assert (IH' : heap_all (statuses_in (K (h ++ [(o, n, x)]))) s).
    { revert IH. apply statuses_more. intros j t (o' & n' & x' & H1 & H2). exists o', n', x'. split; [apply in_app_iff; auto|exact H2]. }
    destruct o; cbn [op_ok]; auto.
    - intros j ro t X. right. apply HERE. exists ro. exact X.
    - intros j ro t X. right. apply HERE. exists ro. exact X.
    - match goal with |- context [set_status (obj s ?k) ?b ?c] => pose proof (obj_P (keeps_in _) s k IH') as [D R];
        destruct (set_status_cases (obj s k) b c) as [(Q & _)|[(Q & _)|[(j & _ & Q & _)|(j & _ & KS & _ & Q)]]] end;
        try (rewrite Q; split; [exact D|exact R]).
      rewrite Q. apply (mbind_pres (statuses_in _)); [|intros e' X; exact X].
      split; [now apply set_raw_dicts|]. destruct st0 as [t|].
      + intros k t'. unfold mev. cbn. rewrite dget_dset. destruct (String.eqb k j); [|apply R]. intros X. injection X as <-. left. exact KS.
      + intros k t' X. apply raw_none_state_sub in X; [eauto|exact D].
    - intros j ro t X. right. apply HERE. exists ro. exact X.
    - destruct parsed as [[vs|]| |]; auto. intros v known default sp Hv EI j ro t Hin.
      rewrite (import_spec_attendees _ _ _ _ _ EI) in Hin. apply in_map_iff in Hin as ([[k ps] ro'] & X & Hi).
      destruct (known k); [|discriminate]. injection X as -> _ X. destruct ps as [ps|]; cbn in X.
      + right. apply HERE. exists v, ro'. subst. auto.
      + subst. left. now left. }
  destruct (obj_P (keeps_in (K h)) s r A) as [_ R]. apply R. unfold get_status in G. cbn [attendee_id rbind] in G. congruence.
Qed.
Print Assumptions C40_status_origin.

(** the status of [C81_case] is not a documented one *)
Example C40_origin_case : exists s r, reachable cf0 s /\ get_status (obj s r) ann = Ok (Some "MAYBE"%string).
Proof.
  exists (run cf0 (office ++ [OSpecify 0 (p_spec (p_at 732500 9) (Some HOUR) false None [(ann, "CHAIR"%string, Some "MAYBE"%string)])])), 0%nat.
  split; [apply run_reachable|vm_compute; reflexivity].
Qed.
