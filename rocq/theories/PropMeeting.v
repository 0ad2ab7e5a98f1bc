(** Property theorems C133: a meeting put into a free period.
    The workflow of doc/meeting.txt 57-119 and doc/usecase.txt: ask for the free
    periods of some people, create an event in one of them, invite the others, and everybody accepts. *)
From Verif Require Import Base PyDate Recurrent CalTime Event Storage ICal System.
From Verif Require Import UtilProofs TimeProofs QueryProofs BlockProofs EventProofs SpecProofs SystemProofs StoreProofs PropEvent PropSystem PropQuery PropRoom.
Local Open Scope Z_scope.

(** ** Specification *)
(** the calls: [who] creates the event, which becomes object [r], invites the
    others, and the others accept *)
Definition arranging (r : nat) (who : string) (sp : spec) (now : Z) (others : list string) : list op :=
  OAttendeeCreate who sp now :: OInvite r (map Some others)
  :: map (fun j => OSetStatus r (Some j) (Some "ACCEPTED"%string)) others.

(** the calls are made one after the other, and none of them raises *)
Fixpoint carried_out (cf : config) (s : system) (l : list op) (s' : system) : Prop :=
  match l with
  | [] => s' = s
  | o :: r => exists s1 n, step cf s o = (s1, n, Ok tt) /\ carried_out cf s1 r s'
  end.

(** a single meeting of length [d] at [a], that takes the time of who attends *)
Definition meeting (sp : spec) (a d : Z) : Prop :=
  s_dtstart sp = a /\ s_duration sp = Some d /\ 0 <= d /\ dt_ok a = true /\ dt_ok (a + d) = true
  /\ s_recurrence sp = None /\ s_allday sp = false /\ s_transparent sp = false /\ s_status sp <> "CANCELED"%string
  /\ s_attendees sp = [].

(** ** Proofs *)
Lemma carried_out_app cf l1 : forall s l2 s1 s2, carried_out cf s l1 s1 -> carried_out cf s1 l2 s2 -> carried_out cf s (l1 ++ l2) s2.
Proof.
  induction l1 as [|o l1 IH]; intros s l2 s1 s2; cbn [carried_out app]; [intros ->; auto|].
  intros (s0 & n & E & C) C2. exists s0, n. split; [exact E|]. eapply IH; eauto.
Qed.

Lemma replace_last {A} (h : list A) x y : replace_nth (List.length h) (h ++ [x]) y = h ++ [y].
Proof. induction h as [|z h IH]; [reflexivity|]. cbn. now rewrite IH. Qed.

Lemma obj_last h e d so c : obj (mkSys (h ++ [e]) d so c) (List.length h) = e.
Proof. unfold obj. cbn [sys_heap]. now rewrite app_nth2, Nat.sub_diag by lia. Qed.

Lemma on_last h e d so c f : on_event (mkSys (h ++ [e]) d so c) (List.length h) f =
  let '(e', n, x) := f e in (mkSys (h ++ [e']) d so c, n, x).
Proof.
  unfold on_event. rewrite obj_last. destruct (f e) as [[e' n] x]. unfold with_heap. cbn [sys_heap sys_store sys_source sys_cals].
  now rewrite replace_last.
Qed.

Lemma accepting e j : exists e' n, set_status e (Some j) (Some "ACCEPTED"%string) = (e', n, Ok tt) /\ same_attrs e e'
  /\ forall i, dget (e_state e') i = if String.eqb i j then Some "ACCEPTED"%string else dget (e_state e) i.
Proof.
  unfold set_status. change (str_in "ACCEPTED" statuses) with true. cbv iota. unfold get_status. cbn [attendee_id rbind].
  destruct (opt_str_eqb (dget (e_state e) j) (Some "ACCEPTED"%string)) eqn:O.
  - exists e, []. split; [reflexivity|]. split; [apply same_attrs_refl|]. intros i.
    destruct (String.eqb_spec i j) as [->|]; [|reflexivity].
    destruct (dget (e_state e) j) as [st|]; [|discriminate]. cbn in O. apply String.eqb_eq in O. now subst.
  - cbn [set_status_raw attendee_id mbind]. eexists _, _. split; [reflexivity|]. split; [apply same_attrs_state|].
    intros i. cbn [e_state with_state]. apply dget_dset.
Qed.

Lemma accepting_all cf h d so c others : forall e, exists e',
  carried_out cf (mkSys (h ++ [e]) d so c) (map (fun j => OSetStatus (List.length h) (Some j) (Some "ACCEPTED"%string)) others)
                 (mkSys (h ++ [e']) d so c)
  /\ same_attrs e e'
  /\ forall i, dget (e_state e') i = if str_in i others then Some "ACCEPTED"%string else dget (e_state e) i.
Proof.
  induction others as [|j l IH]; intros e.
  - exists e. cbn. split; [reflexivity|]. split; [apply same_attrs_refl|reflexivity].
  - destruct (accepting e j) as (e1 & n & E & S1 & D1). destruct (IH e1) as (e' & C & S2 & D2).
    exists e'. split.
    + cbn [map carried_out step]. eexists _, n. rewrite on_last, E. split; [reflexivity|exact C].
    + split; [eapply same_attrs_trans; eauto|]. intros i. rewrite D2, D1. cbn [str_in existsb].
      unfold str_in. destruct (existsb (String.eqb i) l); [now rewrite orb_true_r|rewrite orb_false_r]. reflexivity.
Qed.

(** the calls succeed and leave one further event, and nothing else changed *)
Lemma arranged cf s who sp now others : s_allday sp = false -> s_attendees sp = [] ->
  let u := generated_id cf now (List.length (sys_store s)) in
  exists e, carried_out cf s (arranging (List.length (sys_heap s)) who sp now others)
                        (mkSys (sys_heap s ++ [e]) (dset (sys_store s) u (List.length (sys_heap s))) (sys_source s) (sys_cals s))
  /\ same_attrs (organize (set_attrs sp (blank u)) who) e
  /\ forall j, dget (e_state e) j = if String.eqb j who || str_in j others then Some "ACCEPTED"%string else None.
Proof.
  intros AD AT. cbv zeta. set (u := generated_id cf now (List.length (sys_store s))).
  set (h := sys_heap s). set (e0 := organize (set_attrs sp (blank u)) who).
  assert (N : new_event u (with_spec_organizer sp who) = Ok e0).
  { unfold new_event. rewrite set_on_object_eq. cbn [s_organizer s_attendees with_spec_organizer]. rewrite AT. cbn [set_attendees].
    fold e0. replace (set_attrs (with_spec_organizer sp who) (blank u)) with (set_attrs sp (blank u)) by reflexivity. fold e0.
    replace (e_allday e0) with (s_allday sp) by reflexivity. now rewrite AD. }
  destruct (invite_spec (map Some others) e0) as (e1 & ids & E1 & S1 & _ & I1 & D1 & _).
  { intros H. apply in_map_iff in H as (x & X & _). discriminate. }
  destruct (accepting_all cf h (dset (sys_store s) u (List.length h)) (sys_source s) (sys_cals s) others e1) as (e & C & S2 & D2).
  exists e. split.
  - unfold arranging. cbn [carried_out]. eexists _, _. split.
    { cbn [step]. unfold create_event. fold u. rewrite N. unfold drop, sbind. cbn. reflexivity. }
    eexists _, _. split.
    { cbn [step]. fold h. rewrite on_last, E1. reflexivity. }
    exact C.
  - split; [eapply same_attrs_trans; eauto|]. intros j. rewrite D2, D1.
    assert (D0 : dget (e_state e0) j = if String.eqb j who then Some "ACCEPTED"%string else None) by (cbn; now destruct (String.eqb j who)).
    destruct (str_in j others) eqn:O; [now rewrite orb_true_r|rewrite orb_false_r].
    destruct (str_in j ids) eqn:Q; [|exact D0]. exfalso. apply str_in_iff in Q. apply I1 in Q as [Q _].
    apply in_map_iff in Q as (x & X & H). injection X as <-. apply str_in_iff in H. congruence.
Qed.

Lemma in_str_in j who others : In j (who :: others) <-> String.eqb j who || str_in j others = true.
Proof. rewrite orb_true_iff, String.eqb_eq, str_in_iff. cbn. intuition congruence. Qed.

Lemma carried_out_fun cf l : forall s s1 s2, carried_out cf s l s1 -> carried_out cf s l s2 -> s1 = s2.
Proof.
  induction l as [|o l IH]; intros s s1 s2; cbn [carried_out]; [congruence|].
  intros (a1 & n1 & E1 & C1) (a2 & n2 & E2 & C2). rewrite E1 in E2. injection E2 as <- <-. now apply (IH a1).
Qed.

(** * C133 *)
Theorem C133_arranged : forall cf s who sp now others, s_allday sp = false -> s_attendees sp = [] ->
  let u := generated_id cf now (List.length (sys_store s)) in
  let r := List.length (sys_heap s) in
  exists s', carried_out cf s (arranging r who sp now others) s'
  /\ get_event s' u = Ok r
  /\ e_dtstart (obj s' r) = s_dtstart sp /\ e_duration (obj s' r) = s_duration sp
  /\ get_organizer_id (obj s' r) = Some who
  /\ (forall j, In j (who :: others) -> get_status (obj s' r) (Some j) = Ok (Some "ACCEPTED"%string))
  /\ (forall j, ~ In j (who :: others) -> get_status (obj s' r) (Some j) = Ok None)
  /\ (forall r', (r' < r)%nat -> obj s' r' = obj s r')
  /\ (forall u', u' <> u -> get_event s' u' = get_event s u').
Proof.
  intros cf s who sp now others AD AT. cbv zeta.
  destruct (arranged cf s who sp now others AD AT) as (e & C & SA & D).
  eexists. split; [exact C|]. rewrite obj_last. unfold get_event, get_status. cbn [sys_store attendee_id rbind].
  split; [now rewrite dget_dset, String.eqb_refl|].
  unfold same_attrs in SA. decompose [and] SA. unfold get_organizer_id.
  split; [assumption|]. split; [assumption|]. split; [assumption|].
  split; [intros j J; apply in_str_in in J; now rewrite D, J|].
  split.
  { intros j J. rewrite D. destruct (String.eqb j who || str_in j others) eqn:E; [|reflexivity]. apply in_str_in in E. contradiction. }
  split.
  - intros r' L. unfold obj. cbn [sys_heap]. now rewrite app_nth1.
  - intros u' NE. rewrite dget_dset. destruct (String.eqb_spec u' (generated_id cf now (List.length (sys_store s)))) as [E|_]; [contradiction|reflexivity].
Qed.
Print Assumptions C133_arranged.

Lemma free_none F evs atts begins ends tb te m l : get_free F evs atts begins ends tb te m = Ok l ->
  exists l0, get_free F evs atts begins ends tb te None = Ok l0 /\ incl l l0.
Proof.
  destruct m as [m|]; [|intros E; exists l; split; [exact E|apply incl_refl]].
  rewrite get_free_minimal. destruct (get_free F evs atts begins ends tb te None) as [l0| |]; try discriminate.
  intros E. injection E as <-. exists l0. split; [reflexivity|]. intros x H. now apply filter_In in H.
Qed.

(** The meeting is inside one of the free periods that were answered, whatever
    minimal length was asked for: nobody who attends it attends anything else
    meanwhile, and it is in the working hours. *)
Theorem C133_no_collision : forall cf s who sp now others F atts begins ends tb te m l a d x y s',
  reachable cf s -> evs_ok (stored s) -> dt_ok begins = true -> dt_ok ends = true -> begins < ends -> 0 <= tb < DAY /\ 0 <= te < DAY ->
  get_free F (stored s) atts begins ends tb te m = Ok l ->
  (forall j, In j (who :: others) -> In (Some j) atts) ->
  meeting sp a d -> In (x, y) l -> x <= a /\ a + d <= y -> begins <= a /\ a + d <= ends ->
  carried_out cf s (arranging (List.length (sys_heap s)) who sp now others) s' ->
  forall t, a <= t < a + d ->
  tb <= t mod DAY < te
  /\ forall j r' u, In j (who :: others) -> get_event s' u = Ok r' -> takes_time (obj s' r') j -> happens (obj s' r') t ->
       r' = List.length (sys_heap s).
Proof.
  intros cf s who sp now others F atts begins ends tb te m l a d x y s' RE OK OB OE BE W E IN M L B1 B2 C t T.
  destruct M as (M1 & M2 & M3 & M4 & M5 & M6 & M7 & M8 & M9 & M10).
  destruct (free_none _ _ _ _ _ _ _ _ _ E) as (l0 & E0 & I).
  pose proof (get_free_covers _ _ _ _ _ _ _ _ OK OB OE BE W E0 t ltac:(lia)) as G.
  assert (CV : covers l0 t) by (exists x, y; split; [now apply I|lia]).
  apply G in CV as [NO NB]. split.
  - unfold outside, dt_time in NO. lia.
  - intros j r' u J GE TT HA. destruct (arranged cf s who sp now others M7 M10) as (e & C' & _ & _).
    pose proof (carried_out_fun _ _ _ _ _ C C') as S'.
    subst s'. unfold get_event in GE. cbn [sys_store] in GE. rewrite dget_dset in GE.
    destruct (String.eqb_spec u (generated_id cf now (List.length (sys_store s)))) as [->|NE]; [now injection GE as <-|].
    exfalso. destruct (dget (sys_store s) u) as [r0|] eqn:D; [|discriminate]. injection GE as <-.
    destruct (reachable_store _ _ RE) as [ND ST]. destruct (ST _ _ D) as (LT & _).
    assert (OBJ : obj (mkSys (sys_heap s ++ [e]) (dset (sys_store s) (generated_id cf now (List.length (sys_store s))) (List.length (sys_heap s))) (sys_source s) (sys_cals s)) r0 = obj s r0).
    { unfold obj. cbn [sys_heap]. now rewrite app_nth1. }
    rewrite OBJ in TT, HA. apply NB. exists j, (obj s r0). split; [now apply IN|]. split; [|auto].
    unfold stored. apply in_map_iff. exists (u, r0). split; [reflexivity|]. now apply dget_in.
Qed.
Print Assumptions C133_no_collision.

(** Asked again, the free periods are what they were, less the time of the meeting:
    for everybody who attends it, and unchanged for the others. *)
Theorem C133_then_taken : forall cf s who sp now others F atts begins ends tb te l l' a d s',
  reachable cf s -> evs_ok (stored s) -> dt_ok begins = true -> dt_ok ends = true -> begins < ends -> 0 <= tb < DAY /\ 0 <= te < DAY ->
  meeting sp a d -> has_event s (generated_id cf now (List.length (sys_store s))) = false ->
  carried_out cf s (arranging (List.length (sys_heap s)) who sp now others) s' ->
  get_free F (stored s) atts begins ends tb te None = Ok l ->
  get_free F (stored s') atts begins ends tb te None = Ok l' ->
  forall t, begins <= t < ends ->
  (covers l' t <-> covers l t /\ ~ (a <= t < a + d /\ exists j, In j (who :: others) /\ In (Some j) atts)).
Proof.
  intros cf s who sp now others F atts begins ends tb te l l' a d s' RE OK OB OE BE W M FR C E E' t T.
  destruct M as (M1 & M2 & M3 & M4 & M5 & M6 & M7 & M8 & M9 & M10).
  destruct (arranged cf s who sp now others M7 M10) as (e & C' & SA & D).
  pose proof (carried_out_fun _ _ _ _ _ C C') as S'.
  destruct (reachable_store _ _ RE) as [ND ST].
  set (u := generated_id cf now (List.length (sys_store s))) in *.
  unfold same_attrs in SA. decompose [and] SA. cbn in *.
  assert (HE : forall t, happens e t <-> a <= t < a + d).
  { intros t'. unfold happens, occurs. replace (e_recurrence e) with (@None rule) by congruence.
    split.
    - intros (t0 & d0 & X1 & -> & X2). assert (d0 = d) by congruence. assert (e_dtstart e = a) by congruence. lia.
    - intros X. exists a, d. split; [congruence|]. split; [congruence|exact X]. }
  assert (TE : forall j, takes_time e j <-> In j (who :: others)).
  { intros j. unfold takes_time, attends. rewrite D, in_str_in. split.
    - intros (_ & _ & st & X & _). destruct (String.eqb j who || str_in j others); [reflexivity|discriminate].
    - intros ->. split; [congruence|]. split; [congruence|]. exists "ACCEPTED"%string. repeat split; discriminate. }
  assert (FR' : dget (sys_store s) u = None).
  { unfold has_event, get_event in FR. destruct (dget (sys_store s) u); [discriminate|reflexivity]. }
  assert (IN : forall v, In v (stored s') <-> In v (stored s) \/ v = e).
  { intros v. rewrite !stored_iff; [|exact ND|subst s'; cbn [sys_store]; now apply dset_nodup].
    subst s'. unfold get_event. cbn [sys_store]. split.
    - intros (u' & r' & G & ->). rewrite dget_dset in G. destruct (String.eqb_spec u' u) as [->|NE].
      + injection G as <-. right. apply obj_last.
      + left. exists u', r'. split; [exact G|]. destruct (dget (sys_store s) u') as [r0|] eqn:G0; [|discriminate]. injection G as <-.
        destruct (ST _ _ G0) as (LT & _). unfold obj. cbn [sys_heap]. now rewrite app_nth1.
    - intros [(u' & r' & G & ->)| ->].
      + exists u', r'. rewrite dget_dset. destruct (String.eqb_spec u' u) as [->|NE]; [rewrite FR' in G; discriminate|].
        split; [exact G|]. destruct (dget (sys_store s) u') as [r0|] eqn:G0; [|discriminate]. injection G as <-.
        destruct (ST _ _ G0) as (LT & _). unfold obj. cbn [sys_heap]. now rewrite app_nth1.
      + exists u, (List.length (sys_heap s)). rewrite dget_dset, String.eqb_refl. split; [reflexivity|]. symmetry. apply obj_last. }
  assert (OK' : evs_ok (stored s')).
  { intros v V. apply IN in V as [V| ->]; [now apply OK|]. split.
    - split; [congruence|]. exists d. split; [congruence|]. split; [exact M3|congruence].
    - unfold event_rule_ok. replace (e_recurrence e) with (@None rule) by congruence. exact I. }
  rewrite (get_free_covers _ _ _ _ _ _ _ _ OK' OB OE BE W E' t T), (get_free_covers _ _ _ _ _ _ _ _ OK OB OE BE W E t T).
  assert (B : busy (stored s') atts t <-> busy (stored s) atts t \/ (a <= t < a + d /\ exists j, In j (who :: others) /\ In (Some j) atts)).
  { unfold busy. split.
    - intros (i & v & X1 & X2 & X3 & X4). apply IN in X2 as [X2| ->]; [left; exists i, v; auto|].
      right. split; [now apply HE|]. exists i. split; [now apply TE|exact X1].
    - intros [(i & v & X1 & X2 & X3 & X4)|(X1 & j & X2 & X3)].
      + exists i, v. split; [exact X1|]. split; [apply IN; now left|auto].
      + exists j, e. split; [exact X3|]. split; [apply IN; now right|]. split; [now apply TE|now apply HE]. }
  rewrite B. tauto.
Qed.
Print Assumptions C133_then_taken.

Definition busy_week : list op :=
  [OAttendee "ann" "Ann" "INDIVIDUAL"; OAttendee "bob" "Bob" "INDIVIDUAL"; OAttendee "cid" "Cid" "INDIVIDUAL";
   OAttendeeCreate "ann" (p_spec (p_at 732500 9) (Some (2 * HOUR)) false None []) 0;
   OAttendeeCreate "bob" (p_spec (p_at 732500 14) (Some HOUR) false None []) 1;
   OAttendeeCreate "cid" (p_spec (p_at 732501 9) (Some (3 * HOUR)) false None []) 2; OInvite 2 [Some "bob"]]%string.
Definition board : spec := p_spec (p_at 732500 12) (Some HOUR) false None [].
Definition asked (s : system) : res (list (Z * Z)) :=
  get_free 100 (stored s) [Some "ann"; Some "bob"; Some "cid"]%string (p_at 732500 0) (p_at 732502 0) (9 * HOUR) (17 * HOUR) (Some HOUR).
(** what is left after the calls of [arranging] *)
Definition afterwards (s : system) (l : list op) : system := fold_left (fun s o => sst (step cf0 s o)) l s.

Example C133_ex : let s := run cf0 busy_week in
  let l := arranging 3 "ann" board 3 ["bob"; "cid"]%string in
  reachable cf0 s /\ evs_ok (stored s) /\ List.length (sys_heap s) = 3%nat
  /\ has_event s (generated_id cf0 3 (List.length (sys_store s))) = false
  /\ meeting board (p_at 732500 12) HOUR
  /\ asked s = Ok [(p_at 732500 11, p_at 732500 14); (p_at 732500 15, p_at 732500 17); (p_at 732501 12, p_at 732501 17)]
  /\ carried_out cf0 s l (afterwards s l)
  /\ asked (afterwards s l)
     = Ok [(p_at 732500 11, p_at 732500 12); (p_at 732500 13, p_at 732500 14); (p_at 732500 15, p_at 732500 17); (p_at 732501 12, p_at 732501 17)].
Proof.
  cbv zeta. split; [apply run_reachable|]. split.
  { assert (Q : forallb (fun e => match e_recurrence e, e_duration e with
        | None, Some d => dt_ok (e_dtstart e) && (0 <=? d) && dt_ok (e_dtstart e + d) | _, _ => false end) (stored (run cf0 busy_week)) = true)
      by (vm_compute; reflexivity).
    intros e H. rewrite forallb_forall in Q. specialize (Q e H). unfold event_ok, event_rule_ok.
    destruct (e_recurrence e) as [r|]; [discriminate|]. destruct (e_duration e) as [d|]; [|discriminate].
    apply andb_prop in Q as [Q Q3]. apply andb_prop in Q as [Q1 Q2]. apply Z.leb_le in Q2.
    split; [|exact I]. split; [exact Q1|]. exists d. auto. }
  split; [vm_compute; reflexivity|]. split; [vm_compute; reflexivity|]. split; [repeat split; vm_compute; try reflexivity; discriminate|].
  split; [vm_compute; reflexivity|]. split; [|vm_compute; reflexivity].
  cbn [carried_out arranging map afterwards fold_left].
  repeat (eexists _, _; split; [vm_compute; reflexivity|]). vm_compute. reflexivity.
Qed.
