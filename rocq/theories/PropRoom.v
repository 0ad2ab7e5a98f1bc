(** Property theorems C128: a room that answers its own invitations
    (doc/usecase.txt 50-51, doc/florent_usecase.txt 28-31: "a policy to always accept invitations if it's possible"). *)
From Verif Require Import Base PyDate Recurrent CalTime Event Storage ICal System Deliver.
From Verif Require Import TimeProofs QueryProofs EventProofs SpecProofs SystemProofs StoreProofs DeliverProofs PropEvent PropSystem PropDeliver.
From Coq Require Import Sorting.Sorted.

(** ** The room *)
(** SearchCriteria(participation_status='ACCEPTED') *)
Definition agreed : option criteria := Some (mk_criteria ANone (Some "ACCEPTED"%string) None None None).

(** what the room answers to the invitation to object [r]: it looks up what it
    has accepted in that time, with room.getEvents (cal.py 619-625), and takes no
    recurring events *)
Definition room_answer (room : string) (s : system) (r : nat) : string :=
  let e := obj s r in
  match e_recurrence e, e_duration e with
  | None, Some d =>
      match attendee_events (stored s) (Some room) (Some (e_dtstart e), Some (e_dtstart e + d)) agreed with
      | Ok [] => "ACCEPTED"
      | _ => "DECLINED"
      end
  | _, _ => "DECLINED"
  end%string.

(** the subscriber *)
Definition room_policy {M} (room : string) : watcher M :=
  fun k s r x =>
    match x with
    | NParticipation _ i _ (Some st) =>
        if String.eqb i room && String.eqb st "NEEDS-ACTION"
        then one_call k (OSetStatus r (Some room) (Some (room_answer room s r))) else fine k
    | _ => fine k
    end.

(** ** Specification *)
Definition accepted (room : string) (e : event) : Prop := get_status e (Some room) = Ok (Some "ACCEPTED"%string).

(** one ends before the other begins *)
Definition apart (t1 : Z) (d1 : option Z) (t2 : Z) (d2 : option Z) : Prop :=
  match d1, d2 with Some d1, Some d2 => t1 + d1 <= t2 \/ t2 + d2 <= t1 | _, _ => False end.

(** object [r] is a single event, and no event that the room has accepted is at that time *)
Definition free (room : string) (s : system) (r : nat) : Prop :=
  e_recurrence (obj s r) = None /\ e_duration (obj s r) <> None
  /\ forall u r', get_event s u = Ok r' -> r' <> r -> accepted room (obj s r') ->
       apart (e_dtstart (obj s r)) (e_duration (obj s r)) (e_dtstart (obj s r')) (e_duration (obj s r')).

(** specifications by which the room does not attend from the start *)
Definition without (room : string) (sp : spec) : Prop :=
  s_organizer sp <> Some room /\ forall ro, ~ In (Some room, ro, Some "ACCEPTED"%string) (s_attendees sp).

(** Calls that respect the room: nobody accepts for it unless it is free, no
    event it has accepted is moved or specified anew, none is made with the room in it, and nothing is imported. *)
Definition respects (room : string) (s : system) (o : op) : Prop :=
  match o with
  | OCreate _ sp _ => without room sp
  | OAttendeeCreate i sp _ => i <> room /\ without room sp
  | OSetStatus r a st => a = Some room -> st = Some "ACCEPTED"%string -> free room s r
  | OAdjust r | OAssign r _ => ~ accepted room (obj s r)
  | OSpecify r sp => ~ accepted room (obj s r) /\ without room sp
  | OImport _ _ _ _ _ => False
  | _ => True
  end.

(** every call of a program, in the state it is made in *)
Fixpoint calls_at {M} (P : system -> op -> Prop) (s : system) (p : program M) : Prop :=
  match p with
  | Return _ _ => True
  | Call _ o next => P s o /\ forall k s' r, calls_at P s' (next k s' r)
  end.
Definition all_at {M} (P : system -> op -> Prop) (subs : list (watcher M)) : Prop :=
  forall w k s r x, In w subs -> calls_at P s (w k s r x).

(** ** Proofs *)
Lemma accepted_dget room e : accepted room e <-> dget (e_state e) room = Some "ACCEPTED"%string.
Proof. unfold accepted, get_status. cbn. split; [intros H; now injection H as H|intros ->; reflexivity]. Qed.

Definition well_booked (room : string) (s : system) : Prop :=
  store_inv s /\ heap_all roles_ok s
  /\ (forall u r, dget (sys_store s) u = Some r -> accepted room (obj s r) ->
        e_recurrence (obj s r) = None /\ e_duration (obj s r) <> None)
  /\ forall u r u' r', dget (sys_store s) u = Some r -> dget (sys_store s) u' = Some r' -> u <> u' ->
       accepted room (obj s r) -> accepted room (obj s r') ->
       apart (e_dtstart (obj s r)) (e_duration (obj s r)) (e_dtstart (obj s r')) (e_duration (obj s r')).

Lemma apart_sym t1 d1 t2 d2 : apart t1 d1 t2 d2 -> apart t2 d2 t1 d1.
Proof. unfold apart. destruct d1, d2; tauto. Qed.

Lemma step_frame cf s o : store_inv s -> heap_all roles_ok s -> ~ (exists c p q r b, o = OImport c p q r b) ->
  store_inv (sst (step cf s o)) /\ heap_all roles_ok (sst (step cf s o)).
Proof.
  intros SI RO NI. split; [apply (step_tracks cf s o SI)|]. apply (step_keeps keeps_roles); [|exact RO].
  destruct o; cbn; auto.
  - apply set_status_roles. now apply (obj_P keeps_roles).
  - exfalso. apply NI. eauto 10.
Qed.

(** an object changes *)
Lemma on_event_booked_ok room s r f : well_booked room s ->
  (let e := obj s r in let e' := mev (f e) in accepted room e' ->
     e_dtstart e' = e_dtstart e /\ e_duration e' = e_duration e /\ e_recurrence e' = e_recurrence e
     /\ (accepted room e \/ free room s r)) ->
  store_inv (sst (on_event s r f)) -> heap_all roles_ok (sst (on_event s r f)) -> well_booked room (sst (on_event s r f)).
Proof.
  intros (SI & RO & B1 & B2) H S1 R1. split; [exact S1|]. split; [exact R1|]. clear S1 R1. cbv zeta in H.
  assert (O : forall r', obj (sst (on_event s r f)) r' = if (r' =? r)%nat && (r <? List.length (sys_heap s))%nat then mev (f (obj s r)) else obj s r').
  { intros r'. unfold on_event. destruct (f (obj s r)) as [[e n] x]. unfold sst. cbn [fst]. rewrite obj_heap, replace_nth_get.
    destruct (Nat.eqb_spec r' r) as [->|]; reflexivity. }
  assert (D : sys_store (sst (on_event s r f)) = sys_store s).
  { unfold on_event. destruct (f (obj s r)) as [[e n] x]. reflexivity. }
  rewrite D.
  assert (U : forall u u' r', dget (sys_store s) u = Some r' -> dget (sys_store s) u' = Some r' -> u = u').
  { intros u u' r' G G'. destruct SI as [_ SI]. destruct (SI _ _ G) as (_ & <- & _). now destruct (SI _ _ G') as (_ & <- & _). }
  split.
  - intros u r' G A. rewrite O in A |- *. destruct ((r' =? r)%nat && (r <? List.length (sys_heap s))%nat) eqn:C; [|now apply (B1 u)].
    apply andb_prop in C as [C _]. apply Nat.eqb_eq in C. subst r'. destruct (H A) as (E1 & E2 & E3 & [F|F]).
    + rewrite E2, E3. now apply (B1 u).
    + rewrite E2, E3. split; apply F.
  - assert (K : forall u r' u', dget (sys_store s) u = Some r -> dget (sys_store s) u' = Some r' -> u <> u' ->
        accepted room (mev (f (obj s r))) -> accepted room (obj s r') -> r' <> r /\
        apart (e_dtstart (mev (f (obj s r)))) (e_duration (mev (f (obj s r)))) (e_dtstart (obj s r')) (e_duration (obj s r'))).
    { intros u r' u' G G' NE A A'. assert (NR : r' <> r) by (intros ->; apply NE; now apply (U _ _ r)). split; [exact NR|].
      destruct (H A) as (E1 & E2 & E3 & [F|F]); rewrite E1, E2.
      - now apply (B2 u r u' r').
      - apply F with (u := u'); auto. unfold get_event. now rewrite G'. }
    intros u r1 u' r2 G1 G2 NE A1 A2. rewrite O in A1. rewrite O in A2. rewrite !O.
    destruct ((r1 =? r)%nat && (r <? List.length (sys_heap s))%nat) eqn:C1, ((r2 =? r)%nat && (r <? List.length (sys_heap s))%nat) eqn:C2.
    + apply andb_prop in C1 as [C1 _]. apply andb_prop in C2 as [C2 _]. apply Nat.eqb_eq in C1, C2. subst. exfalso. apply NE. now apply (U _ _ r).
    + apply andb_prop in C1 as [C1 _]. apply Nat.eqb_eq in C1. subst. now apply (K u r2 u').
    + apply andb_prop in C2 as [C2 _]. apply Nat.eqb_eq in C2. subst. apply apart_sym. apply (K u' r1 u); auto.
    + now apply (B2 u r1 u' r2).
Qed.

(** participation may change, but the room does not accept *)
Lemma same_attrs_times e e' : same_attrs e e' -> e_dtstart e' = e_dtstart e /\ e_duration e' = e_duration e /\ e_recurrence e' = e_recurrence e.
Proof. unfold same_attrs. intros H. decompose [and] H. auto. Qed.

Lemma set_on_object_without room sp e : without room sp -> ~ accepted room e -> dicts_ok e -> ~ accepted room (mev (set_on_object sp e)).
Proof.
  intros [W1 W2] NA DI. rewrite accepted_dget in *.
  apply (set_on_object_pres (fun e => dicts_ok e /\ dget (e_state e) room <> Some "ACCEPTED"%string)); auto.
  - intros e1 i O [D1 N1]. split; [split; cbn; apply dset_nodup; apply D1|]. cbn. rewrite dget_dset.
    destruct (String.eqb_spec room i) as [->|]; [congruence|exact N1].
  - intros e1 a ro st I [D1 N1]. unfold entry_step.
    apply (mbind_pres (fun e => dicts_ok e /\ dget (e_state e) room <> Some "ACCEPTED"%string)).
    + split; [now apply set_role_dicts|]. now rewrite set_role_state.
    + intros e2 [D2 N2]. split; [now apply set_raw_dicts|]. unfold set_status_raw. destruct a as [i|]; cbn [attendee_id]; [|exact N2].
      destruct st as [st|].
      * cbn. rewrite dget_dset. destruct (String.eqb_spec room i) as [->|]; [|exact N2].
        intros X. injection X as ->. now apply (W2 ro).
      * unfold ddel. destruct (dget (e_state e2) i); [|exact N2].
        assert (N3 : dget (drem (e_state e2) i) room <> Some "ACCEPTED"%string).
        { rewrite dget_drem by apply D2. destruct (String.eqb room i); [discriminate|exact N2]. }
        destruct (dget (e_role (with_state e2 (drem (e_state e2) i))) i); exact N3.
Qed.

Lemma booked_same room s s' : store_inv s' -> heap_all roles_ok s' -> (forall r, obj s' r = obj s r) ->
  (forall u r, dget (sys_store s') u = Some r -> dget (sys_store s) u = Some r) -> well_booked room s -> well_booked room s'.
Proof.
  intros SI RO O D (_ & _ & B1 & B2). split; [exact SI|]. split; [exact RO|]. split.
  - intros u r G. rewrite O. apply (B1 u). auto.
  - intros u r u' r' G G'. rewrite !O. apply B2; auto.
Qed.

Lemma create_booked room cf s uid sp now : without room sp -> well_booked room s ->
  store_inv (sst (create_event cf s uid sp now)) -> heap_all roles_ok (sst (create_event cf s uid sp now)) ->
  well_booked room (sst (create_event cf s uid sp now)).
Proof.
  intros W B SI RO. destruct (create_spec cf s uid sp now) as [(r & e & E & R & NE & _)|(E & _)]; [|now rewrite E].
  rewrite E in *. unfold sst in *. cbn [fst] in *. set (u := match uid with Some u => u | None => _ end) in *.
  assert (NA : ~ accepted room e).
  { assert (X : ~ accepted room e /\ dicts_ok e).
    { apply (new_event_pres (fun e => ~ accepted room e /\ dicts_ok e) sp u e); auto.
      - intros e1 [N1 D1]. split; [now apply set_on_object_without|now apply set_on_object_dicts].
      - intros e1 [N1 D1]. rewrite accepted_dget, allday_state in *. split; [exact N1|]. unfold dicts_ok. rewrite allday_role, allday_state. exact D1.
      - split; [rewrite accepted_dget; discriminate|split; constructor]. }
    apply X. }
  destruct B as (SI0 & RO0 & B1 & B2). split; [exact SI|]. split; [exact RO|].
  assert (K : forall v r', dget (dset (sys_store s) u r) v = Some r' ->
     accepted room (nth r' (sys_heap s ++ [e]) (blank "")) -> dget (sys_store s) v = Some r' /\ nth r' (sys_heap s ++ [e]) (blank "") = obj s r').
  { intros v r' G A. rewrite dget_dset in G. destruct (String.eqb v u).
    - injection G as <-. exfalso. apply NA. now rewrite R, nth_middle in A.
    - split; [exact G|]. apply app_obj. destruct SI0 as [_ SI0]. exact (proj1 (SI0 v r' G)). }
  unfold obj. cbn [sys_heap sys_store]. split.
  - intros v r' G A. destruct (K v r' G A) as [G0 E0]. rewrite E0 in A |- *. now apply (B1 v).
  - intros v r1 v' r2 G1 G2 NV A1 A2. destruct (K v r1 G1 A1) as [G1' E1]. destruct (K v' r2 G2 A2) as [G2' E2].
    rewrite E1 in A1 |- *. rewrite E2 in A2 |- *. now apply (B2 v r1 v' r2).
Qed.

Lemma step_booked room cf s o : respects room s o -> well_booked room s -> well_booked room (sst (step cf s o)).
Proof.
  intros RE B. pose proof B as (SI & RO & B1 & B2).
  assert (NI : ~ (exists c p q r b, o = OImport c p q r b)) by (intros (? & ? & ? & ? & ? & ->); exact RE).
  destruct (step_frame cf s o SI RO NI) as [S1 R1]. clear NI.
  assert (DI : forall r, dicts_ok (obj s r)) by (intros r; apply (obj_P keeps_roles s r RO)).
  destruct o; cbn [step respects] in *; rewrite ?drop_sst in *.
  - now apply create_booked.
  - apply create_booked; auto. destruct RE as [N [W1 W2]]. split; [cbn; congruence|exact W2].
  - apply (booked_same room s); auto.
    + intros r'. unfold delete_event. now destruct (ddel (sys_store s) (e_uid (obj s r))).
    + intros u r'. unfold delete_event, ddel. destruct (dget (sys_store s) (e_uid (obj s r))) eqn:G; [|auto].
      unfold sst. cbn. rewrite dget_drem by apply SI. destruct (String.eqb u (e_uid (obj s r))); [discriminate|auto].
  - apply on_event_booked_ok; auto. cbv zeta. intros A. pose proof (same_attrs_times _ _ (invite_attrs l (obj s r))) as (E1 & E2 & E3).
    split; [exact E1|]. split; [exact E2|]. split; [exact E3|]. left. rewrite accepted_dget in *.
    destruct (opt_str_eqb (dget (e_state (obj s r)) room) (Some "ACCEPTED"%string)) eqn:C; [now apply opt_str_eqb_eq|].
    exfalso. revert A. apply (invite_pres (fun e => dget (e_state e) room <> Some "ACCEPTED"%string)).
    + intros e i N _. cbn. rewrite dget_dset. destruct (String.eqb room i); [discriminate|exact N].
    + intros X. apply opt_str_eqb_eq in X. congruence.
  - apply on_event_booked_ok; auto. cbv zeta. intros A. pose proof (same_attrs_times _ _ (set_status_attrs (obj s r) a st)) as (E1 & E2 & E3).
    split; [exact E1|]. split; [exact E2|]. split; [exact E3|]. rewrite accepted_dget in A |- *.
    destruct (set_status_cases (obj s r) a st) as [(E & _)|[(E & _)|[(i & _ & E & _)|(i & -> & _ & NE & E)]]]; rewrite E in A; try (now left).
    destruct (String.eqb_spec room i) as [<-|NI].
    + right. apply RE; [reflexivity|]. destruct st as [st|].
      * cbn in A. now rewrite dget_dset, String.eqb_refl in A.
      * exfalso. unfold set_status_raw, ddel in A. cbn [attendee_id] in A.
        destruct (dget (e_state (obj s r)) room); [|congruence].
        assert (N3 : dget (drem (e_state (obj s r)) room) room = None) by (rewrite dget_drem by apply DI; now rewrite String.eqb_refl).
        destruct (dget (e_role (with_state (obj s r) (drem (e_state (obj s r)) room))) room); cbn in A; rewrite N3 in A; discriminate.
    + left. rewrite <- E in A. destruct (set_status_others (obj s r) (Some i) st room (DI r)) as [O _]; [congruence|]. now rewrite O in A.
  - apply on_event_booked_ok; auto. cbv zeta. intros A. pose proof (same_attrs_times _ _ (set_role_attrs (obj s r) a role)) as (E1 & E2 & E3).
    split; [exact E1|]. split; [exact E2|]. split; [exact E3|]. left. rewrite accepted_dget in *. now rewrite set_role_state in A.
  - apply on_event_booked_ok; auto. cbv zeta. intros A. exfalso. apply RE. unfold mev in A. cbn [fst] in A. rewrite accepted_dget in *. now rewrite allday_state in A.
  - apply on_event_booked_ok; auto. cbv zeta. intros A. exfalso. apply RE. exact A.
  - apply on_event_booked_ok; auto. cbv zeta. intros A. exfalso. destruct RE as [NA W]. now apply (set_on_object_without room sp (obj s r)).
  - apply (booked_same room s); auto.
  - apply (booked_same room s); auto.
  - apply (booked_same room s); auto; unfold add_attendee; destruct (attendee_id a); auto.
  - apply (booked_same room s); auto; unfold remove_attendee; destruct (let* i := attendee_id a in _); auto.
  - contradiction.
Qed.

Definition stays_booked {M} (room : string) : M -> system -> list notification -> M -> system -> bool -> Prop :=
  fun _ s _ _ s' _ => well_booked room s -> well_booked room s'.

Lemma respects_leads {M} room cf t : (forall k s r x, leads (@stays_booked M room) k s (t k s r x)) ->
  forall k s o, respects room s o -> leads (@stays_booked M room) k s (step_on t cf k s o).
Proof.
  intros T.
  assert (F : R_refl (@stays_booked M room)) by (intros k s b; exact (fun H => H)).
  assert (TR : R_trans (@stays_booked M room)) by (intros k s n1 k1 s1 n2 k2 s2 b A1 A2 H; auto).
  assert (Q : R_quiet cf (respects room) (@stays_booked M room)).
  { intros k s o H _. intros B. now apply step_booked. }
  assert (TO : R_told cf (respects room) t (@stays_booked M room)).
  { intros k s o s1 x H _ E m B. apply (T k s1 (subject s o) x). pose proof (step_booked room cf s o H B) as X. now rewrite E in X. }
  intros k s o H.
  assert (BIG : (forall s0 o', part cf s0 o o' -> respects room s0 o') -> leads (@stays_booked M room) k s (step_on t cf k s o)).
  { intros C. apply (step_leads cf (respects room) (fun _ => True)); auto.
    intros k0 s0 r0 sp0 s1 v u P0 _ _ _ _ E x m B. apply (T k0 s1 r0 x). pose proof (step_booked room cf s0 _ P0 B) as X. now rewrite E in X. }
  assert (ONE : snt (step cf s o) = [] -> leads (@stays_booked M room) k s (unheard k (step cf s o))).
  { intros N. now apply (quiet_step cf (respects room)). }
  destruct o; try contradiction; try (now apply ONE); try (now apply BIG; intros s0 o' PA; inversion PA; subst; cbn; try discriminate; auto).
  - now apply (status_leads cf (respects room)).
  - apply ONE. cbn [step]. unfold on_event.
    pose proof (set_on_object_notes sp (obj s r)) as N. destruct (set_on_object sp (obj s r)) as [[e n] x]. exact N.
Qed.

Lemma deliver_booked {M} room cf (subs : list (watcher M)) : all_at (respects room) subs ->
  forall depth k s r x, leads (stays_booked room) k s (deliver depth cf subs k s r x).
Proof.
  intros W. induction depth as [|d IH]; intros k s r x; cbn [deliver]; [exact (fun H => H)|].
  assert (CO : forall p (k : M) s, calls_at (respects room) s p -> leads (stays_booked room) k s (carry_out (step_on (deliver d cf subs) cf) s p)).
  { induction p as [k0 r1|k0 o0 next IHp]; cbn [calls_at carry_out]; intros k1 s1 WP; [exact (fun H => H)|].
    destruct WP as [W1 W2]. pose proof (respects_leads room cf _ IH k0 s1 o0 W1) as A1.
    destruct (step_on (deliver d cf subs) cf k0 s1 o0) as [k2 [[s2 n2] r2]]. pose proof (IHp k2 s2 r2 k2 s2 (W2 _ _ _)) as A2.
    destruct (carry_out (step_on (deliver d cf subs) cf) s2 (next k2 s2 r2)) as [k3 [[s3 n3] r3]].
    intros B. exact (A2 (A1 B)). }
  assert (L : forall l, (forall w, In w l -> In w subs) -> forall k s,
    leads (stays_booked room) k s (each_on (step_on (deliver d cf subs) cf) l k s r x)).
  { induction l as [|w l IHl]; intros SUB k0 s0; cbn [each_on]; [exact (fun H => H)|].
    apply tbind_leads; [intros ? ? ? ? ? ? ? ? ? A1 A2 H; auto|apply CO, W, SUB; now left|intros u _; apply IHl; intros v Hv; apply SUB; now right]. }
  apply L. auto.
Qed.

(** ** What the room answers *)
Lemma stored_iff s e : NoDup (dkeys (sys_store s)) -> (In e (stored s) <-> exists u r, get_event s u = Ok r /\ e = obj s r).
Proof.
  intros N. unfold stored, get_event. rewrite in_map_iff. split.
  - intros ([u r] & <- & H). exists u, r. rewrite (in_dget _ _ _ N H). auto.
  - intros (u & r & G & ->). destruct (dget (sys_store s) u) as [r'|] eqn:D; [|discriminate]. injection G as <-.
    exists (u, r'). split; [reflexivity|]. now apply dget_in.
Qed.

Lemma agreed_iff room e : satisfies (restrict_attendees agreed [Some room]) e <-> accepted room e.
Proof.
  rewrite accepted_dget. unfold satisfies, agreed, restrict_attendees, clone, mk_criteria, attends. cbn. split.
  - intros (_ & _ & H). destruct (H _ eq_refl) as (i & st & [E|[]] & A & ST & _). injection E as <-. now rewrite (ST _ eq_refl) in A.
  - intros H. split; [discriminate|]. split; [discriminate|]. intros l E. injection E as <-. exists room, "ACCEPTED"%string.
    split; [now left|]. split; [exact H|]. split; [intros x X; now injection X as <-|discriminate].
Qed.

Lemma answer_cases room s r : room_answer room s r = "ACCEPTED"%string \/ room_answer room s r = "DECLINED"%string.
Proof.
  unfold room_answer. destruct (e_recurrence (obj s r)), (e_duration (obj s r)); auto.
  destruct (attendee_events _ _ _ _) as [[|]| |]; auto.
Qed.

Lemma answer_free room s r : room_answer room s r = "ACCEPTED"%string -> free room s r.
Proof.
  unfold room_answer, free. destruct (e_recurrence (obj s r)); [discriminate|]. destruct (e_duration (obj s r)) as [d|] eqn:DU; [|discriminate].
  destruct (attendee_events _ _ _ _) as [[|]| |] eqn:Q; try discriminate. intros _. split; [reflexivity|]. split; [discriminate|].
  intros u r' G _ A. unfold attendee_events in Q.
  assert (IN : In (obj s r') (stored s)).
  { unfold stored, get_event in *. destruct (dget (sys_store s) u) as [x|] eqn:D; [|discriminate]. injection G as ->.
    apply in_map_iff. exists (u, r'). split; [reflexivity|]. now apply dget_in. }
  pose proof (proj2 (agreed_iff room (obj s r')) A) as SA.
  destruct (e_duration (obj s r')) as [d'|] eqn:DU'.
  - pose proof (get_events_in _ _ _ _ Q (obj s r') d' DU') as X. cbn [apart fst snd] in *.
    assert (NO : ~ (e_dtstart (obj s r) < e_dtstart (obj s r') + d' /\ e_dtstart (obj s r') < e_dtstart (obj s r) + d)).
    { intros [L1 L2]. apply (proj2 X). split; [exact IN|]. split; [exact SA|]. split; intros b E; injection E as <-; assumption. }
    lia.
  - exfalso. unfold get_events in Q. destruct (matching_events (stored s) _) as [m| |] eqn:MA; try discriminate. cbn [rbind] in Q.
    assert (IM : In (obj s r') m) by (apply (matching_in _ _ _ MA); auto).
    destruct (rfilter_all _ _ _ Q _ IM) as [b B]. rewrite DU' in B. discriminate B.
Qed.

Lemma free_answer room s r : store_inv s -> (forall e, In e (stored s) -> event_ok e) -> ~ accepted room (obj s r) ->
  free room s r -> room_answer room s r = "ACCEPTED"%string.
Proof.
  intros [ND _] OK NA (F1 & F2 & F3). unfold room_answer. cbv zeta. rewrite F1. destruct (e_duration (obj s r)) as [d|] eqn:DU; [|congruence].
  unfold attendee_events.
  match goal with |- context [get_events ?a ?b ?c] => destruct (get_events_total a b c) as [l Q] end.
  - split; [discriminate|]. intros l E. injection E as <-. intros [X|[]]. discriminate.
  - exact OK.
  - rewrite Q. destruct l as [|e l]; [reflexivity|]. exfalso.
    assert (D : exists d', e_duration e = Some d').
    { assert (I : In e (stored s)).
      { unfold get_events in Q. destruct (matching_events (stored s) _) as [m| |] eqn:MA; try discriminate. cbn [rbind] in Q.
        assert (IM : In e m) by (apply (rfilter_in _ _ _ Q); now left). apply (matching_in _ _ _ MA) in IM. apply IM. }
      destruct (OK e I) as (_ & d' & D & _). eauto. }
    destruct D as [d' D]. destruct (proj1 (get_events_in _ _ _ _ Q e d' D) (or_introl eq_refl)) as (I & SA & P1 & P2).
    apply agreed_iff in SA. apply (stored_iff s e ND) in I as (u & r' & G & ->).
    specialize (P1 _ eq_refl). specialize (P2 _ eq_refl). cbn [fst snd] in *.
    assert (NR : r' <> r) by (intros ->; contradiction). specialize (F3 u r' G NR SA). rewrite D in F3. cbn in F3. lia.
Qed.

(** The room accepts exactly when it is free. *)
Theorem C128_answers_exactly cf room s r : reachable cf s -> (forall e, In e (stored s) -> event_ok e) -> ~ accepted room (obj s r) ->
  (room_answer room s r = "ACCEPTED"%string <-> free room s r) /\ (room_answer room s r = "DECLINED"%string <-> ~ free room s r).
Proof.
  intros RE OK NA. pose proof (reachable_store cf s RE) as SI. pose proof (answer_free room s r) as A1. pose proof (free_answer room s r SI OK NA) as A2.
  split; [split; auto|]. destruct (answer_cases room s r) as [C|C]; rewrite C in *.
  - split; [discriminate|]. intros N. exfalso. auto.
  - split; [|reflexivity]. intros _ F. specialize (A2 F). discriminate.
Qed.

(** So its subscriber respects it, whatever it is told and whenever. *)
Theorem C128_policy_respects M room : all_at (respects room) [@room_policy M room].
Proof.
  intros w k s r x [<-|[]]. unfold room_policy. destruct x as [u|u|u|u i old [st|]]; try exact I.
  destruct (String.eqb i room && String.eqb st "NEEDS-ACTION"); [|exact I]. cbn. split; [|intros; exact I].
  intros _ E. injection E as E. now apply answer_free.
Qed.
Print Assumptions C128_answers_exactly.
Print Assumptions C128_policy_respects.

(** ** Never booked twice *)
(** what calls can lead to while they and all subscribers respect the room *)
Inductive booking (cf : config) (room : string) : system -> Prop :=
| booking_none : booking cf room init
| booking_step M (k : M) s depth subs o k' s' n r : booking cf room s -> all_at (respects room) subs -> respects room s o ->
    step_told depth cf subs k s o = (k', (s', n, r)) -> booking cf room s'.

Lemma booking_booked cf room s : booking cf room s -> well_booked room s.
Proof.
  induction 1 as [|M k s depth subs o k' s' n r _ IH W RE E].
  - split; [apply store_inv_init|]. split; [constructor|]. split; intros; discriminate.
  - pose proof (respects_leads room cf _ (deliver_booked room cf subs W depth) k s o RE) as L. unfold step_told in E. rewrite E in L. exact (L IH).
Qed.

Lemma pairs_filter {A} (R : A -> A -> Prop) f l : ForallOrdPairs R l -> ForallOrdPairs R (filter f l).
Proof.
  induction 1 as [|a l F _ IH]; cbn [filter]; [constructor|]. destruct (f a); [|exact IH]. constructor; [|exact IH].
  apply Forall_forall. intros x Hx. apply filter_In in Hx. now apply (proj1 (Forall_forall _ _) F).
Qed.

Lemma pairs_expand fuel p l : forall out, rconcat_map (fun e => expand fuel e p) l = Ok out ->
  ForallOrdPairs (fun e1 e2 => apart (e_dtstart e1) (e_duration e1) (e_dtstart e2) (e_duration e2)) l ->
  (forall e, In e l -> e_recurrence e = None) ->
  ForallOrdPairs (fun o1 o2 => apart (o_dtstart o1) (o_duration o1) (o_dtstart o2) (o_duration o2)) out
  /\ (forall o, In o out -> exists e, In e l /\ o_dtstart o = e_dtstart e /\ o_duration o = e_duration e).
Proof.
  induction l as [|e l IH]; intros out E F N; cbn [rconcat_map] in E; [injection E as <-; split; [constructor|intros o []]|].
  inversion F as [|a b F1 F2]; subst.
  unfold expand at 1 in E. rewrite (N e (or_introl eq_refl)) in E.
  destruct (in_period (e_dtstart e) (e_duration e) p) as [b| |]; try discriminate. cbn [rbind] in E.
  destruct (rconcat_map (fun e => expand fuel e p) l) as [out'| |]; try discriminate. cbn [rbind] in E. injection E as <-.
  destruct (IH out' eq_refl F2 (fun e0 H0 => N e0 (or_intror H0))) as [P1 P2].
  assert (P3 : forall o, In o out' -> exists e1, In e1 (e :: l) /\ o_dtstart o = e_dtstart e1 /\ o_duration o = e_duration e1).
  { intros o Ho. destruct (P2 o Ho) as (e1 & H1 & H2). exists e1. split; [now right|exact H2]. }
  destruct b; cbn [app]; [|split; [exact P1|exact P3]]. split.
  - constructor; [|exact P1]. apply Forall_forall. intros o Ho. destruct (P2 o Ho) as (e1 & H1 & -> & ->). cbn.
    now apply (proj1 (Forall_forall _ _) F1).
  - intros o [<-|Ho]; [|auto]. exists e. cbn. auto.
Qed.

(** Whatever is created, invited, answered, moved and deleted, and whatever
    subscribers do: as long as all respect the room, no two things it has accepted are at
    the same time. *)
Theorem C128_never_twice cf room s fuel p l : booking cf room s ->
  attendee_occurrences fuel (stored s) (Some room) p agreed = Ok l ->
  ForallOrdPairs (fun o1 o2 => apart (o_dtstart o1) (o_duration o1) (o_dtstart o2) (o_duration o2)) l.
Proof.
  intros B E. apply booking_booked in B as ((ND & SI) & _ & B1 & B2). unfold attendee_occurrences, get_occurrences in E.
  destruct (assert_bounded p) as [b| |]; try discriminate. cbn [rbind] in E.
  destruct (matching_events (stored s) _) as [m| |] eqn:MA; try discriminate. cbn [rbind] in E.
  assert (AC : forall e, In e m -> In e (stored s) /\ accepted room e).
  { intros e He. apply (matching_in _ _ _ MA) in He as [H1 H2]. split; [exact H1|]. now apply agreed_iff in H2. }
  apply (pairs_expand fuel p m l E).
  - assert (P : ForallOrdPairs (fun e1 e2 => accepted room e1 -> accepted room e2 ->
        apart (e_dtstart e1) (e_duration e1) (e_dtstart e2) (e_duration e2)) m).
    { unfold matching_events in MA. apply rfilter_is_filter in MA. subst m. apply pairs_filter. clear - ND B2. unfold stored.
      assert (X : forall d, NoDup (dkeys d) -> (forall u r, In (u, r) d -> dget (sys_store s) u = Some r) ->
        ForallOrdPairs (fun e1 e2 => accepted room e1 -> accepted room e2 ->
        apart (e_dtstart e1) (e_duration e1) (e_dtstart e2) (e_duration e2)) (map (fun kv : string * nat => obj s (snd kv)) d)).
      { induction d as [|[u r] d IH]; intros N H; cbn [map]; [constructor|]. inversion N as [|? ? N1 N2]; subst. constructor.
        - apply Forall_forall. intros e He A1 A2. apply in_map_iff in He as ([u' r'] & <- & He). cbn [snd] in *.
          apply (B2 u r u' r'); auto; [apply H; now left|apply H; now right|]. intros ->. apply N1. apply in_map_iff. exists (u', r'). auto.
        - apply IH; [exact N2|]. intros v q Hv. apply H. now right. }
      apply X; [exact ND|]. intros u r H. now apply in_dget. }
    clear - P AC. induction P as [|e m F P IH]; constructor.
    + apply Forall_forall. intros e' He'. apply (proj1 (Forall_forall _ _) F _ He'); [apply AC; now left|apply AC; now right].
    + apply IH. intros e' He'. apply AC. now right.
  - intros e He. destruct (AC e He) as [I A]. apply (stored_iff s e ND) in I as (u & r & G & ->).
    apply (B1 u); [|exact A]. unfold get_event in G. destruct (dget (sys_store s) u); congruence.
Qed.
Print Assumptions C128_never_twice.

(** ** An invitation is answered at once *)
Lemma free_same room s s1 r : sys_store s1 = sys_store s -> (forall r', r' <> r -> obj s1 r' = obj s r') ->
  same_attrs (obj s r) (obj s1 r) -> free room s r <-> free room s1 r.
Proof.
  intros D O A. apply same_attrs_times in A as (E1 & E2 & E3). unfold free, get_event. rewrite D, E1, E2, E3.
  split; intros (F1 & F2 & F3); (split; [exact F1|]; split; [exact F2|]); intros u r' G N AC; specialize (F3 u r' G N);
    rewrite ?O in * by exact N; auto.
Qed.

Theorem C128_invited M (k : M) d cf room s r : reachable cf s -> (forall e, In e (stored s) -> event_ok e) ->
  (r < List.length (sys_heap s))%nat -> get_status (obj s r) (Some room) = Ok None ->
  exists s' ans, let u := e_uid (obj s r) in
    step_told (S (S d)) cf [room_policy room] k s (OInvite r [Some room])
    = (k, (s', [NParticipation u room None (Some "NEEDS-ACTION"); NParticipation u room (Some "NEEDS-ACTION") (Some ans)], Ok tt))%string
    /\ get_status (obj s' r) (Some room) = Ok (Some ans)
    /\ (ans = "ACCEPTED"%string <-> free room s r) /\ (ans = "DECLINED"%string <-> ~ free room s r).
Proof.
  intros RE OK L G. pose proof (reachable_store cf s RE) as SI.
  assert (G' : dget (e_state (obj s r)) room = None) by (unfold get_status in G; cbn in G; congruence).
  set (e1 := with_state (obj s r) (dset (e_state (obj s r)) room "NEEDS-ACTION"%string)).
  set (s1 := with_heap s (replace_nth r (sys_heap s) e1)).
  assert (O1 : forall r', obj s1 r' = if (r' =? r)%nat then e1 else obj s r').
  { intros r'. unfold s1. rewrite obj_heap, replace_nth_get. destruct (Nat.eqb_spec r' r) as [->|]; [|reflexivity].
    rewrite (proj2 (Nat.ltb_lt _ _) L). reflexivity. }
  assert (O1r : obj s1 r = e1) by (rewrite O1, Nat.eqb_refl; reflexivity).
  set (ans := room_answer room s1 r).
  assert (KA : In ans statuses /\ ans <> "NEEDS-ACTION"%string).
  { unfold ans. destruct (answer_cases room s1 r) as [-> | ->]; cbn; split; auto; discriminate. }
  set (e2 := with_state e1 (dset (e_state e1) room ans)). set (s2 := with_heap s1 (replace_nth r (sys_heap s1) e2)).
  assert (L1 : (r < List.length (sys_heap s1))%nat) by (cbn; now rewrite replace_nth_length).
  assert (O2r : obj s2 r = e2).
  { unfold s2. rewrite obj_heap, replace_nth_get, Nat.eqb_refl, (proj2 (Nat.ltb_lt _ _) L1). reflexivity. }
  exists (sst (set_role_on s2 r (Some room) "REQ-PARTICIPANT")), ans. cbv zeta. split.
  - unfold step_told. cbn [step_on invite_on]. rewrite tbind_slift, G.
    assert (HD : forall u old, deliver (S d) cf [room_policy room] k s2 r (NParticipation u room old (Some ans)) = unheard k (sret s2 tt)).
    { intros u old. cbn [deliver each_on]. unfold room_policy. rewrite (proj2 (String.eqb_neq ans "NEEDS-ACTION") (proj2 KA)), andb_false_r. reflexivity. }
    assert (S2 : set_status_on (deliver (S d) cf [room_policy room]) k s1 r (Some room) (Some ans)
      = (k, (s2, [NParticipation (e_uid (obj s r)) room (Some "NEEDS-ACTION"%string) (Some ans)], Ok tt))).
    { unfold set_status_on. assert (K : str_in ans statuses = true) by (apply existsb_exists; exists ans; split; [apply KA|apply String.eqb_refl]).
      rewrite K, tbind_slift. unfold get_status. cbn [attendee_id rbind]. rewrite O1r.
      assert (GE : dget (e_state e1) room = Some "NEEDS-ACTION"%string) by (cbn; now rewrite dget_dset, String.eqb_refl). rewrite GE.
      destruct (opt_str_eqb (Some "NEEDS-ACTION"%string) (Some ans)) eqn:Q; [apply opt_str_eqb_eq in Q; exfalso; apply KA; congruence|].
      unfold on_event. rewrite O1r, set_raw_some. fold e2. fold s2. rewrite tbind_ok. rewrite O2r. unfold announce. rewrite tbind_ok.
      change (e_uid e2) with (e_uid (obj s r)). rewrite HD. reflexivity. }
    assert (HD1 : deliver (S (S d)) cf [room_policy room] k s1 r (NParticipation (e_uid (obj s r)) room None (Some "NEEDS-ACTION"%string))
      = (k, (s2, [NParticipation (e_uid (obj s r)) room (Some "NEEDS-ACTION"%string) (Some ans)], Ok tt))).
    { remember (S d) as d1. cbn [deliver each_on]. unfold room_policy at 2. rewrite !String.eqb_refl. cbn [andb one_call carry_out step_on].
      fold ans. rewrite S2. reflexivity. }
    assert (S1 : set_status_on (deliver (S (S d)) cf [room_policy room]) k s r (Some room) (Some "NEEDS-ACTION"%string)
      = (k, (s2, [NParticipation (e_uid (obj s r)) room None (Some "NEEDS-ACTION"%string);
                  NParticipation (e_uid (obj s r)) room (Some "NEEDS-ACTION"%string) (Some ans)], Ok tt))).
    { unfold set_status_on. change (str_in "NEEDS-ACTION" statuses) with true. cbn iota. rewrite tbind_slift, G.
      change (opt_str_eqb None (Some "NEEDS-ACTION"%string)) with false. cbn iota.
      unfold on_event. rewrite set_raw_some. fold e1. fold s1. rewrite tbind_ok. rewrite O1r. unfold announce. rewrite tbind_ok.
      change (e_uid e1) with (e_uid (obj s r)). rewrite HD1. reflexivity. }
    rewrite S1. unfold set_role_on, on_event, set_role. cbn. reflexivity.
  - split; [|].
    + unfold set_role_on, on_event. rewrite O2r. unfold set_role. cbn [attendee_id]. change (str_in "REQ-PARTICIPANT" roles) with true. cbn iota.
      unfold sst. cbn [fst]. rewrite obj_heap, replace_nth_get, Nat.eqb_refl.
      assert (L2 : (r < List.length (sys_heap s2))%nat) by (cbn; now rewrite !replace_nth_length). rewrite (proj2 (Nat.ltb_lt _ _) L2).
      unfold get_status. cbn. now rewrite dget_dset, String.eqb_refl.
    + assert (FS : free room s r <-> free room s1 r).
      { apply free_same; [reflexivity| |rewrite O1r; apply same_attrs_state].
        intros r' N. rewrite O1. now rewrite (proj2 (Nat.eqb_neq _ _) N). }
      rewrite FS. assert (NA : ~ accepted room (obj s1 r)).
      { rewrite accepted_dget, O1r. cbn. rewrite dget_dset, String.eqb_refl. discriminate. }
      assert (SI1 : store_inv s1).
      { pose proof (step_tracks cf s (OSetStatus r (Some room) (Some "NEEDS-ACTION"%string)) SI) as [X _]. cbn [step] in X. unfold on_event in X.
        rewrite set_status_some in X by (cbn; auto; congruence). exact X. }
      assert (OK1 : forall e, In e (stored s1) -> event_ok e).
      { intros e He. apply (stored_iff s1 e (proj1 SI1)) in He as (u & r' & Gu & ->). change (get_event s1 u) with (get_event s u) in Gu.
        assert (X : event_ok (obj s r')) by (apply OK, (stored_iff s _ (proj1 SI)); eauto).
        rewrite O1. destruct (Nat.eqb_spec r' r) as [->|]; exact X. }
      pose proof (answer_free room s1 r) as A1. pose proof (free_answer room s1 r SI1 OK1 NA) as A2. fold ans in A1, A2.
      split; [split; auto|]. destruct (answer_cases room s1 r) as [C|C]; fold ans in C; rewrite C in *.
      * split; [discriminate|]. intros N. exfalso. auto.
      * split; [|reflexivity]. intros _ F. specialize (A2 F). discriminate.
Qed.
Print Assumptions C128_invited.

(** ** A concrete case *)
(** calls one after the other, the room subscribed *)
Definition with_room (cf : config) (room : string) (s : system) (l : list op) : system :=
  fold_left (fun s o => sst (snd (step_told 4 cf [room_policy room] tt s o))) l s.

Lemma booking_with cf room l : forall s, booking cf room s -> Forall (fun o => forall s, respects room s o) l ->
  booking cf room (with_room cf room s l).
Proof.
  induction l as [|o l IH]; intros s B F; [exact B|]. inversion F as [|? ? F1 F2]; subst. cbn [with_room fold_left]. apply IH; [|exact F2].
  destruct (step_told 4 cf [room_policy room] tt s o) as [k' [[s' n] r]] eqn:E.
  eapply booking_step; [exact B|apply C128_policy_respects|apply F1|exact E].
Qed.

(** two meetings at the same time and one the day before, all invite the hall *)
Definition hall_asked : list op :=
  office ++ [OInvite 1 [Some "hall"]; OInvite 2 [bob; Some "hall"]; OInvite 0 [Some "hall"]]%string.
Example C128_ex : let s := with_room cf0 "hall" init hall_asked in
  booking cf0 "hall" s
  /\ map (fun r => get_status (obj s r) (Some "hall"%string)) [0; 1; 2]%nat
     = [Ok (Some "ACCEPTED"); Ok (Some "ACCEPTED"); Ok (Some "DECLINED")]%string
  /\ match attendee_occurrences 50 (stored s) (Some "hall"%string) (Some (p_at 732500 0), Some (p_at 732510 0)) agreed with
     | Ok l => map (fun o => (o_dtstart o, o_duration o)) l = [(p_at 732500 9, Some HOUR); (p_at 732501 9, Some HOUR)]
     | _ => False
     end.
Proof.
  split; [|split; vm_compute; reflexivity]. apply booking_with; [constructor|].
  repeat (constructor; [intros s; cbn; unfold without; cbn; try exact I; try (split; [discriminate|intros ro H; intuition discriminate])|]). constructor.
Qed.

Lemma all_event_ok l : forallb (fun e => dt_ok (e_dtstart e)
    && match e_duration e with Some d => (0 <=? d) && dt_ok (e_dtstart e + d) | None => false end) l = true -> forall e, In e l -> event_ok e.
Proof.
  intros H e He. apply (proj1 (forallb_forall _ _) H) in He. apply andb_prop in He as [H1 H2]. split; [exact H1|].
  destruct (e_duration e) as [d|]; [|discriminate]. apply andb_prop in H2 as [H2 H3]. exists d. split; [reflexivity|]. split; [lia|exact H3].
Qed.

(** the day before, the hall is free; at the time of the meeting it is not *)
Example C128_answers_ex : let s := with_room cf0 "hall" init (office ++ [OInvite 1 [Some "hall"%string]]) in
  reachable cf0 (run cf0 (office ++ [OInvite 1 [Some "hall"]; OSetStatus 1 (Some "hall") (Some "ACCEPTED")]%string))
  /\ s = run cf0 (office ++ [OInvite 1 [Some "hall"]; OSetStatus 1 (Some "hall") (Some "ACCEPTED")]%string)
  /\ (forall e, In e (stored s) -> event_ok e)
  /\ room_answer "hall" s 0 = "ACCEPTED"%string /\ room_answer "hall" s 2 = "DECLINED"%string
  /\ get_status (obj s 0) (Some "hall"%string) = Ok None.
Proof.
  split; [apply run_reachable|]. split; [vm_compute; reflexivity|]. split.
  - apply all_event_ok. vm_compute. reflexivity.
  - split; [vm_compute; reflexivity|]. split; vm_compute; reflexivity.
Qed.

(** a room that had accepted a daily meeting would be booked twice: getEvents
    looks at an event's own time, not at its later occurrences; hence [free] asks
    for single events *)
Example C128_recurring : let s := with_room cf0 "hall" init
    [OCreate (Some "daily") (mkSpec (p_at 732500 9) (Some HOUR) "" "" "" "CONFIRMED" (Some (mkRule KDaily 1 None None [] [] "")) false [] false "PUBLIC" None ann
       [(Some "hall", "REQ-PARTICIPANT", Some "ACCEPTED")]) 0;
     OCreate (Some "once") (p_spec (p_at 732502 9) (Some HOUR) false ann []) 0; OInvite 1 [Some "hall"]]%string in
  get_status (obj s 1) (Some "hall"%string) = Ok (Some "ACCEPTED"%string)
  /\ match attendee_occurrences 50 (stored s) (Some "hall"%string) (Some (p_at 732502 0), Some (p_at 732503 0)) agreed with
     | Ok l => map (fun o => (o_dtstart o, o_duration o)) l = [(p_at 732502 9, Some HOUR); (p_at 732502 9, Some HOUR)]
     | _ => False
     end.
Proof. split; vm_compute; reflexivity. Qed.
