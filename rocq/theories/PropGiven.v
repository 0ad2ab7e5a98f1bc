(** Property theorems C141: every value an event shows was given to it by a call
    that can be named, and nothing was given to it since (cal.py 87-105, 143-146,
    395-453, 607-609, 690-794). *)
From Verif Require Import Base PyDate DateFacts Recurrent RecurMisc CalTime TimeProofs Event Storage ICal System
  QueryProofs BlockProofs EventProofs SpecProofs SystemProofs StoreProofs IdProofs ImportProofs PropEvent PropSystem
  ICalProofs ImportContent PropICal PropCalendar.
From Coq Require Import ZifyBool.
Ltac Zify.zify_post_hook ::= Z.div_mod_to_equations.
Local Opaque ord2ymd year_of month_of day_of ymd2ord days_in_month is_leap.

(** ** Specification *)
Definition record := (op * list notification * res unit)%type.

(** how many events were created during a history, by its notifications.  Event
    objects are numbered in the order of their creation. *)
Definition made (h : list record) : nat :=
  List.length (filter (fun n => match n with NCreated _ => true | _ => false end) (all_notes h)).

(** the event shows what the specification says, apart from times and people *)
Definition as_specified (sp : spec) (e : event) : Prop :=
  e_title e = s_title sp /\ e_description e = s_description sp /\ e_location e = s_location sp /\ e_status e = s_status sp
  /\ e_recurrence e = s_recurrence sp /\ e_allday e = s_allday sp /\ e_categories e = s_categories sp
  /\ e_transparent e = s_transparent sp /\ e_access e = s_access sp /\ e_document e = s_document sp.

(** the call [o], made after [h1], gave the event object [r] what [e] shows, and
    the start [t] and the length [d] *)
Definition gives (cf : config) (h1 : list record) (o : op) (x : res unit) (r : nat) (e : event) (t : Z) (d : option Z) : Prop :=
  match o with
  | OCreate _ sp _ | OAttendeeCreate _ sp _ => made h1 = r /\ x = Ok tt /\ as_specified sp e /\ t = s_dtstart sp /\ d = s_duration sp
  | OSpecify k sp | OAssign k sp => k = r /\ (r < made h1)%nat /\ as_specified sp e /\ t = s_dtstart sp /\ d = s_duration sp
  | OImport _ (Ok (Some vs)) _ _ _ => exists v len, In v vs /\ v_uid v = Some (e_uid e) /\ says_text v e
      /\ d = Some len /\ says_times (cf_tz cf) v t len (e_allday e)
  | _ => False
  end.

(** the calls that replace everything *)
Definition replaces (r : nat) (o : op) : Prop :=
  match o with OSpecify k _ | OAssign k _ => k = r | _ => False end.
Definition adjusts (r : nat) (x : record) : bool :=
  match x with (OAdjust k, _, _) => Nat.eqb k r | _ => false end.

(** the times of [e] are [t] and [d] made into whole days *)
Definition whole_days (t : Z) (d : option Z) (e : event) : Prop :=
  e_dtstart e mod DAY = 0 /\ e_dtstart e <= t < e_dtstart e + DAY
  /\ exists k, e_duration e = Some (k * DAY) /\ 1 <= k /\ (d = None -> k = 1)
     /\ forall x, d = Some x -> x <= k * DAY /\ forall j, 1 <= j -> x <= j * DAY -> k <= j.

(** the call gave the event its organizer *)
Definition gives_organizer (h1 : list record) (o : op) (x : res unit) (r : nat) (e : event) : Prop :=
  match o with
  | OCreate _ sp _ => made h1 = r /\ x = Ok tt /\ get_organizer_id e = s_organizer sp
  | OAttendeeCreate i _ _ => made h1 = r /\ x = Ok tt /\ get_organizer_id e = Some i
  | OSpecify k sp => k = r /\ (r < made h1)%nat /\ get_organizer_id e = s_organizer sp
  | OImport c (Ok (Some vs)) _ _ _ => exists v, In v vs /\ v_uid v = Some (e_uid e)
      /\ ((exists i, v_organizer v = Some i /\ registered h1 i <> None /\ get_organizer_id e = Some i)
          \/ ((forall i, v_organizer v = Some i -> registered h1 i = None)
              /\ ((c < calendars h1)%nat ->
                  match get_organizer_id e with
                  | Some i => member h1 c i = true /\ registered h1 i <> None
                  | None => forall i, member h1 c i = false
                  end)))
  | _ => False
  end.

(** ** Proofs *)
Lemma book_count n : forall k f, fst (book (k, f) n) = (k + List.length (filter (fun n => match n with NCreated _ => true | _ => false end) n))%nat.
Proof.
  induction n as [|x n IH]; intros k f; [cbn; lia|]. unfold book. cbn [fold_left]. fold (book (book1 (k, f) x) n).
  destruct x; cbn [book1 fst snd filter]; rewrite IH; cbn [List.length]; lia.
Qed.

Lemma made_heap cf s h : history cf s h -> made h = List.length (sys_heap s).
Proof. intros H. destruct (history_booked cf s h H) as [B _]. rewrite B, book_count. reflexivity. Qed.

(** an event that has just got the attributes of a specification *)
Definition base (sp : spec) (u : string) : event := with_organizer (set_attrs sp (blank u)) (s_organizer sp).
Definition from_spec (sp : spec) (b : bool) (u : string) (e : event) : Prop :=
  same_attrs (if b then allday_adjust (base sp u) else base sp u) e.

Lemma set_from sp e : from_spec sp false (e_uid e) (mev (set_on_object sp e)).
Proof. unfold from_spec, same_attrs. exact (set_on_object_attrs sp e). Qed.

Lemma adjust_same e e' : same_attrs e e' -> same_attrs (allday_adjust e) (allday_adjust e').
Proof.
  unfold same_attrs. intros H. decompose [and] H. unfold allday_adjust.
  replace (e_duration e') with (e_duration e) by congruence. replace (e_dtstart e') with (e_dtstart e) by congruence.
  destruct (e_duration e); cbn; repeat split; assumption.
Qed.

Lemma new_from sp u e : new_event u sp = Ok e -> from_spec sp (s_allday sp) u e.
Proof.
  intros N. destruct (new_event_eq _ _ _ N) as (e0 & n & E0 & ->). pose proof (set_from sp (blank u)) as F. rewrite E0 in F.
  unfold mev in F. cbn [fst e_uid blank] in F. unfold from_spec in *. destruct (s_allday sp); [now apply adjust_same|exact F].
Qed.

(** what happens to the objects during an import; [L] objects were there before *)
Definition lent (cf : config) (known : list string) (c : nat) (L : nat) (vs : list vevent) (s : system) (n : list notification) (s' : system) : Prop :=
  (L <= List.length (sys_heap s))%nat -> (forall u k, In u known -> dget (sys_store s) u = Some k -> (k < L)%nat) ->
  (List.length (sys_heap s) <= List.length (sys_heap s'))%nat /\ (forall u k, In u known -> dget (sys_store s') u = Some k -> (k < L)%nat)
  /\ sys_source s' = sys_source s /\ sys_cals s' = sys_cals s
  /\ forall r, (r < List.length (sys_heap s'))%nat ->
     ((r < List.length (sys_heap s))%nat /\ same_attrs (obj s r) (obj s' r))
     \/ exists v u sp, In v vs /\ v_uid v = Some u /\ import_spec (cf_tz cf) (source_knows s) (main_attendee s c) v = Ok sp
        /\ from_spec sp ((L <=? r)%nat && s_allday sp) u (obj s' r).

Lemma lent_refl cf known c L vs s : lent cf known c L vs s [] s.
Proof. intros H K. split; [lia|]. split; [exact K|]. split; [reflexivity|]. split; [reflexivity|]. intros r Hr. left. split; [exact Hr|apply same_attrs_refl]. Qed.

Lemma lent_trans cf known c L vs : T_trans (lent cf known c L vs).
Proof.
  intros a n1 b n2 d H1 H2 HL K. destruct (H1 HL K) as (L1 & K1 & S1 & C1 & R1). destruct (H2 ltac:(lia) K1) as (L2 & K2 & S2 & C2 & R2).
  split; [lia|]. split; [exact K2|]. split; [congruence|]. split; [congruence|]. intros r Hr.
  destruct (R2 r Hr) as [(A & B)|(v & u & sp & V & U & I & F)].
  - destruct (R1 r A) as [(A' & B')|(v & u & sp & V & U & I & F)].
    + left. split; [exact A'|]. eapply same_attrs_trans; eassumption.
    + right. exists v, u, sp. repeat (split; [assumption|]). unfold from_spec in *. eapply same_attrs_trans; eassumption.
  - right. exists v, u, sp. split; [exact V|]. split; [exact U|]. split; [|exact F].
    unfold source_knows, main_attendee, source_get, cal in *. rewrite S1, C1 in I. exact I.
Qed.

Lemma lent_mono cf known c L vs ws s n s' : (forall v, In v vs -> In v ws) -> lent cf known c L vs s n s' -> lent cf known c L ws s n s'.
Proof.
  intros M H HL K. destruct (H HL K) as (L1 & K1 & S1 & C1 & R1). repeat (split; [assumption|]). intros r Hr.
  destruct (R1 r Hr) as [A|(v & u & sp & V & X)]; [now left|]. right. exists v, u, sp. auto.
Qed.

Lemma lent_one cf known c L v s : store_inv s -> lent cf known c L [v] s (snt (import_one cf s c known v)) (sst (import_one cf s c known v)).
Proof.
  intros SI. unfold import_one. destruct (v_uid v) as [u|] eqn:U; [|apply lent_refl]. destruct (str_in u known) eqn:KN.
  - apply sbind_T; [apply lent_trans| |intros [] _; apply lent_refl].
    unfold import_existing. rewrite sbind_slift. destruct (get_event s u) as [r| |] eqn:G; try apply lent_refl.
    rewrite sbind_slift. destruct (import_spec _ _ _ v) as [sp| |] eqn:IS; try apply lent_refl.
    rewrite sbind_slift. destruct (will_modify sp (obj s r)) as [[|]| |]; try apply lent_refl.
    apply sbind_T; [apply lent_trans| |intros [] _; apply lent_refl].
    apply str_in_iff in KN. unfold get_event in G. destruct (dget (sys_store s) u) as [k|] eqn:D; [|discriminate].
    assert (k = r) by congruence. subst k. clear G.
    intros HL K. pose proof (K u r KN D) as KL.
    assert (UU : e_uid (obj s r) = u) by (now apply SI).
    unfold on_event. pose proof (set_from sp (obj s r)) as F. unfold mev in F. destruct (set_on_object sp (obj s r)) as [[e n] x]. unfold sst. cbn [fst].
    cbn [fst] in F. split; [unfold with_heap; cbn; now rewrite replace_nth_length|]. split; [exact K|]. split; [reflexivity|]. split; [reflexivity|].
    intros j Hj. rewrite obj_heap, replace_nth_get. cbn in Hj. rewrite replace_nth_length in Hj.
    destruct ((j =? r)%nat && (r <? List.length (sys_heap s))%nat) eqn:B.
    + right. exists v, u, sp. split; [now left|]. split; [exact U|]. split; [exact IS|]. rewrite UU in F.
      replace (L <=? j)%nat with false by (symmetry; apply Nat.leb_gt; lia). exact F.
    + left. split; [exact Hj|apply same_attrs_refl].
  - destruct (has_event s u) eqn:HE; [apply lent_refl|].
    apply sbind_T; [apply lent_trans| |intros [] _; apply lent_refl].
    unfold import_new. rewrite sbind_slift. destruct (import_spec _ _ _ v) as [sp| |] eqn:IS; try apply lent_refl.
    apply sbind_T; [apply lent_trans| |intros k _; apply lent_refl].
    destruct (create_spec cf s (Some u) sp 0) as [(k & e & E & K0 & N & UE)|(E & E' & _)]; [|rewrite E, E'; apply lent_refl].
    rewrite E. unfold sst. cbn [fst]. intros HL K. split; [cbn; rewrite app_length; cbn; lia|].
    split; [|split; [reflexivity|split; [reflexivity|]]].
    + cbn [sys_store]. intros w j W. rewrite dget_dset. destruct (String.eqb w u) eqn:WU; [|now apply K].
      apply String.eqb_eq in WU. subst w. assert (str_in u known = true) by (now apply str_in_iff). congruence.
    + intros j Hj. cbn [sys_heap] in Hj. rewrite app_length in Hj. cbn in Hj. unfold obj at 2 3. cbn [sys_heap].
      destruct (Nat.eq_dec j (List.length (sys_heap s))) as [->|NJ].
      * right. exists v, u, sp. split; [now left|]. split; [exact U|]. split; [exact IS|]. rewrite app_nth2 by lia. rewrite Nat.sub_diag. cbn [nth].
        replace (L <=? List.length (sys_heap s))%nat with true by (symmetry; apply Nat.leb_le; lia). cbn [andb]. now apply new_from.
      * left. split; [lia|]. rewrite app_nth1 by lia. unfold obj. apply same_attrs_refl.
Qed.

Lemma lent_loop cf known c L vs : forall s, store_inv s ->
  lent cf known c L vs s (snt (import_loop cf s c known vs)) (sst (import_loop cf s c known vs)).
Proof.
  induction vs as [|v vs IH]; intros s SI; [apply lent_refl|]. cbn [import_loop].
  apply sbind_T; [apply lent_trans| |].
  - apply (lent_mono cf known c L [v]); [|now apply lent_one]. intros w [<-|[]]. now left.
  - intros u _. apply sbind_T; [apply lent_trans| |intros us _; apply lent_refl].
    apply (lent_mono cf known c L vs); [intros w W; now right|]. apply IH. now apply (import_one_booked cf s c known v).
Qed.

Lemma delete_loop_heap l : forall s, sys_heap (sst (delete_loop s l)) = sys_heap s.
Proof.
  induction l as [|u l IH]; intros s; [reflexivity|]. cbn [delete_loop]. rewrite sbind_slift.
  destruct (get_event s u) as [r| |]; try reflexivity. unfold delete_event. destruct (ddel _ _) as [d| |]; try reflexivity.
  rewrite sbind_ok. unfold sst at 1. cbn [fst]. now rewrite IH.
Qed.

Lemma import_lends cf s c parsed p cr sync r : store_inv s -> 
  let s' := sst (import_cal cf s c parsed p cr sync) in
  (List.length (sys_heap s) <= List.length (sys_heap s'))%nat
  /\ ((r < List.length (sys_heap s'))%nat ->
     ((r < List.length (sys_heap s))%nat /\ same_attrs (obj s r) (obj s' r))
     \/ exists vs v u sp, parsed = Ok (Some vs) /\ In v vs /\ v_uid v = Some u
        /\ import_spec (cf_tz cf) (source_knows s) (main_attendee s c) v = Ok sp
        /\ from_spec sp ((List.length (sys_heap s) <=? r)%nat && s_allday sp) u (obj s' r)).
Proof.
  intros SI. cbv zeta.
  assert (Z : (List.length (sys_heap s) <= List.length (sys_heap s))%nat /\ ((r < List.length (sys_heap s))%nat ->
     ((r < List.length (sys_heap s))%nat /\ same_attrs (obj s r) (obj s r))
     \/ exists vs v u sp, parsed = Ok (Some vs) /\ In v vs /\ v_uid v = Some u
        /\ import_spec (cf_tz cf) (source_knows s) (main_attendee s c) v = Ok sp
        /\ from_spec sp ((List.length (sys_heap s) <=? r)%nat && s_allday sp) u (obj s r))).
  { split; [lia|]. intros Hr. left. split; [exact Hr|apply same_attrs_refl]. }
  unfold import_cal. rewrite sbind_slift. destruct (cal_events s c p cr) as [evs| |]; try exact Z.
  rewrite sbind_slift. destruct parsed as [[vs|]| |]; try exact Z. clear Z.
  set (known := nodup string_dec (map e_uid evs)).
  pose proof (lent_loop cf known c (List.length (sys_heap s)) vs s SI) as T.
  destruct (T ltac:(lia)) as (L1 & _ & _ & _ & R). { intros u k _ D. now apply SI in D. } clear T.
  destruct (import_loop cf s c known vs) as [[s1 n1] x1]. unfold sst in L1, R. cbn [fst] in L1, R.
  assert (HH : sys_heap (sst (sbind (s1, n1, x1) (fun s0 ical => if sync then delete_loop s0 (filter (fun u => negb (str_in u ical)) known) else sret s0 tt))) = sys_heap s1).
  { destruct x1 as [us| |]; try reflexivity. rewrite sbind_ok. unfold sst at 1. cbn [fst]. destruct sync; [apply delete_loop_heap|reflexivity]. }
  unfold obj at 2 3. rewrite HH. split; [exact L1|]. intros Hr. destruct (R r Hr) as [A|(v & u & sp & X)]; [now left|right].
  exists vs, v, u, sp. split; [reflexivity|exact X].
Qed.

(** one call *)
Lemma step_gives cf s o s' n x r : store_inv s -> step cf s o = (s', n, x) -> (r < List.length (sys_heap s'))%nat ->
  let L := List.length (sys_heap s) in
  (((r < L)%nat /\ ~ replaces r o /\ adjusts r (o, n, x) = false /\ same_attrs (obj s r) (obj s' r))
   \/ ((r < L)%nat /\ o = OAdjust r /\ same_attrs (allday_adjust (obj s r)) (obj s' r))
   \/ (exists sp, (r < L)%nat /\ o = OAssign r sp /\ obj s' r = set_attrs sp (obj s r))
   \/ exists sp u, from_spec sp ((L <=? r)%nat && s_allday sp) u (obj s' r)
      /\ match o with
         | OCreate _ sp0 _ => r = L /\ x = Ok tt /\ sp = sp0
         | OAttendeeCreate i sp0 _ => r = L /\ x = Ok tt /\ sp = with_spec_organizer sp0 i
         | OSpecify k sp0 => k = r /\ (r < L)%nat /\ sp = sp0
         | OImport c (Ok (Some vs)) _ _ _ => exists v, In v vs /\ v_uid v = Some u /\ import_spec (cf_tz cf) (source_knows s) (main_attendee s c) v = Ok sp
         | _ => False
         end).
Proof.
  intros SI E Hr. cbv zeta.
  assert (KE : forall A B C, sys_heap s' = sys_heap s -> ~ replaces r o -> adjusts r (o, n, x) = false ->
     ((r < List.length (sys_heap s))%nat /\ ~ replaces r o /\ adjusts r (o, n, x) = false /\ same_attrs (obj s r) (obj s' r)) \/ A \/ B \/ C).
  { intros A B C H NR NA. left. unfold obj. rewrite H in *. repeat (split; [assumption|]). apply same_attrs_refl. }
  assert (CR : forall uid sp now, drop (create_event cf s uid sp now) = (s', n, x) ->
     ((r < List.length (sys_heap s))%nat /\ same_attrs (obj s r) (obj s' r))
     \/ (r = List.length (sys_heap s) /\ x = Ok tt /\ exists u, from_spec sp ((List.length (sys_heap s) <=? r)%nat && s_allday sp) u (obj s' r))).
  { intros uid sp now E0. destruct (create_spec cf s uid sp now) as [(k & e & E1 & K0 & N & UE)|(E1 & E2 & _)].
    - rewrite E1 in E0. cbn in E0. injection E0 as <- <- <-. cbn [sys_heap] in Hr. rewrite app_length in Hr. cbn in Hr. unfold obj at 2 3. cbn [sys_heap].
      destruct (Nat.eq_dec r (List.length (sys_heap s))) as [->|NJ].
      + right. split; [reflexivity|]. split; [reflexivity|]. rewrite app_nth2 by lia. rewrite Nat.sub_diag, Nat.leb_refl. cbn [nth andb].
        eexists. apply new_from, N.
      + left. split; [lia|]. rewrite app_nth1 by lia. apply same_attrs_refl.
    - left. assert (X : s' = s). { rewrite <- E1, <- (drop_sst (create_event cf s uid sp now)), E0. reflexivity. }
      subst s'. split; [exact Hr|apply same_attrs_refl]. }
  assert (OE : forall k f, on_event s k f = (s', n, x) ->
     (r < List.length (sys_heap s))%nat /\ obj s' r = if (r =? k)%nat then mev (f (obj s k)) else obj s r).
  { intros k f E0. unfold on_event in E0. unfold mev. destruct (f (obj s k)) as [[e m] y]. injection E0 as <- <- <-. cbn in Hr.
    rewrite replace_nth_length in Hr. split; [exact Hr|]. rewrite obj_heap, replace_nth_get. cbn [fst].
    destruct (r =? k)%nat eqn:B; [|reflexivity]. apply Nat.eqb_eq in B. subst k. cbn [andb].
    replace (r <? List.length (sys_heap s))%nat with true by (symmetry; now apply Nat.ltb_lt). reflexivity. }
  assert (OQ : forall k f, on_event s k f = (s', n, x) -> (forall e, same_attrs e (mev (f e))) ->
     (r < List.length (sys_heap s))%nat /\ same_attrs (obj s r) (obj s' r)).
  { intros k f E0 Q. destruct (OE k f E0) as [A B]. split; [exact A|]. rewrite B. destruct (r =? k)%nat eqn:RK; [|apply same_attrs_refl].
    apply Nat.eqb_eq in RK. subst k. apply Q. }
  destruct o; cbn [step replaces adjusts] in *.
  - destruct (CR _ _ _ E) as [[A B]|(A & B & u & F)]; [left; auto|]. right. right. right. exists sp, u. auto.
  - destruct (CR _ _ _ E) as [[A B]|(A & B & u & F)]; [left; auto|]. right. right. right. exists (with_spec_organizer sp i), u. auto.
  - apply KE; [|tauto|reflexivity]. unfold delete_event in E. destruct (ddel _ _); injection E as <- _ _; reflexivity.
  - destruct (OQ _ _ E) as [A B]; [intros e; apply invite_attrs|]. left. auto.
  - destruct (OQ _ _ E) as [A B]; [intros e; apply set_status_attrs|]. left. auto.
  - destruct (OQ _ _ E) as [A B]; [intros e; apply set_role_attrs|]. left. auto.
  - destruct (OE _ _ E) as [A B]. destruct (r =? r0)%nat eqn:RK.
    + apply Nat.eqb_eq in RK. subst r0. right. left. rewrite B. unfold mev. cbn [fst]. split; [exact A|]. split; [reflexivity|apply same_attrs_refl].
    + left. rewrite B. split; [exact A|]. split; [tauto|]. split; [now rewrite Nat.eqb_sym|apply same_attrs_refl].
  - destruct (OE _ _ E) as [A B]. destruct (r =? r0)%nat eqn:RK.
    + apply Nat.eqb_eq in RK. subst r0. right. right. left. exists sp. rewrite B. auto.
    + left. rewrite B. split; [exact A|]. split; [intros ->; now rewrite Nat.eqb_refl in RK|]. split; [reflexivity|apply same_attrs_refl].
  - destruct (OE _ _ E) as [A B]. destruct (r =? r0)%nat eqn:RK.
    + apply Nat.eqb_eq in RK. subst r0. right. right. right. exists sp, (e_uid (obj s r)). rewrite B.
      replace (List.length (sys_heap s) <=? r)%nat with false by (symmetry; apply Nat.leb_gt; lia). split; [apply set_from|auto].
    + left. rewrite B. split; [exact A|]. split; [intros ->; now rewrite Nat.eqb_refl in RK|]. split; [reflexivity|apply same_attrs_refl].
  - apply KE; [|tauto|reflexivity]. injection E as <- _ _. reflexivity.
  - apply KE; [|tauto|reflexivity]. injection E as <- _ _. reflexivity.
  - apply KE; [|tauto|reflexivity]. unfold add_attendee in E. destruct a; injection E as <- _ _; reflexivity.
  - apply KE; [|tauto|reflexivity]. unfold remove_attendee in E. destruct (let* i := attendee_id a in _); injection E as <- _ _; reflexivity.
  - destruct (import_lends cf s c parsed p cr sync r SI) as [_ D]. rewrite E in D. unfold sst in D. cbn [fst] in D.
    destruct (D Hr) as [[A B]|(vs & v & u & sp & -> & V & U & IS & F)]; [left; auto|].
    right. right. right. exists sp, u. split; [exact F|]. exists v. auto.
Qed.

Lemma same_specified sp e e' : same_attrs e e' -> as_specified sp e -> as_specified sp e'.
Proof. unfold same_attrs, as_specified. intros H K. decompose [and] H. decompose [and] K. repeat split; congruence. Qed.

Lemma same_said v e e' : same_attrs e e' -> says_text v e -> says_text v e'.
Proof.
  unfold same_attrs, says_text. intros H. decompose [and] H. clear H.
  repeat match goal with E : _ e' = _ e |- _ => rewrite E; clear E end. auto.
Qed.

Lemma same_gives cf h1 o x r e e' t d : same_attrs e e' -> gives cf h1 o x r e t d -> gives cf h1 o x r e' t d.
Proof.
  intros S. pose proof (fun sp => same_specified sp e e' S) as A. pose proof (fun v => same_said v e e' S) as B.
  unfold same_attrs in S. decompose [and] S. clear S. unfold gives.
  destruct o; intros K; try contradiction; try (destruct K as (K1 & K2 & K3 & K4 & K5); split; [exact K1|]; split; [exact K2|]; split; [now apply A|]; split; assumption).
  destruct parsed as [[vs|]| |]; try contradiction. destruct K as (v & len & V & U & T & D & W). exists v, len.
  split; [exact V|]. split; [congruence|]. split; [auto|]. split; [exact D|]. congruence.
Qed.

Lemma adjust_gives cf h1 o x r e t d : gives cf h1 o x r e t d -> gives cf h1 o x r (allday_adjust e) t d.
Proof.
  assert (A : forall sp, as_specified sp e -> as_specified sp (allday_adjust e)).
  { intros sp K. unfold as_specified, allday_adjust in *. destruct (e_duration e); exact K. }
  assert (B : forall v, says_text v e -> says_text v (allday_adjust e)).
  { intros v K. unfold says_text, allday_adjust in *. destruct (e_duration e); exact K. }
  destruct (allday_rest e) as (U0 & _ & _ & _ & _ & _ & A0 & _). unfold gives.
  destruct o; intros K; try contradiction; try (destruct K as (K1 & K2 & K3 & K4 & K5); split; [exact K1|]; split; [exact K2|]; split; [now apply A|]; split; assumption).
  destruct parsed as [[vs|]| |]; try contradiction. destruct K as (v & len & V & U & T & D & W). exists v, len.
  split; [exact V|]. split; [congruence|]. split; [auto|]. split; [exact D|]. congruence.
Qed.

Lemma whole_made t d e : e_dtstart e = t -> e_duration e = d -> (forall x, d = Some x -> 0 <= x) -> whole_days t d (allday_adjust e).
Proof.
  intros <- <- N. unfold whole_days, allday_adjust. destruct (e_duration e) as [x|]; cbn [e_dtstart e_duration with_time].
  - specialize (N x eq_refl). unfold combine, dt_date. split; [unfold DAY; lia|]. split; [unfold DAY; lia|].
    eexists. split; [reflexivity|]. unfold td_days.
    destruct (negb (x - x / DAY * DAY =? 0) || (x / DAY =? 0)) eqn:B.
    + split; [unfold DAY in *; lia|]. split; [discriminate|]. intros y Y. injection Y as <-. split; [unfold DAY in *; lia|]. intros j J1 J2. unfold DAY in *. lia.
    + split; [unfold DAY in *; lia|]. split; [discriminate|]. intros y Y. injection Y as <-. split; [unfold DAY in *; lia|]. intros j J1 J2. unfold DAY in *. lia.
  - unfold combine, dt_date. split; [unfold DAY; lia|]. split; [unfold DAY; lia|]. exists 1. split; [f_equal; unfold DAY; lia|].
    split; [lia|]. split; [reflexivity|]. discriminate.
Qed.

Lemma whole_again t d e : whole_days t d e -> whole_days t d (allday_adjust e).
Proof.
  intros (A & B & k & K & K1 & K2 & K3). unfold whole_days, allday_adjust. rewrite K. cbn [e_dtstart e_duration with_time].
  unfold combine, dt_date, td_days. rewrite Z.div_mul by (unfold DAY; lia).
  replace (negb (k * DAY - k * DAY =? 0) || (k =? 0)) with false by lia.
  split; [unfold DAY in *; lia|]. split; [unfold DAY in *; lia|]. exists k. auto.
Qed.

Lemma whole_same t d e e' : same_attrs e e' -> whole_days t d e -> whole_days t d e'.
Proof. unfold same_attrs, whole_days. intros H. decompose [and] H. clear H. now rewrite H2, H1. Qed.

Lemma from_gives cf s h1 o n x r s' sp u : history cf s h1 -> step cf s o = (s', n, x) -> (r < List.length (sys_heap s'))%nat ->
  from_spec sp ((List.length (sys_heap s) <=? r)%nat && s_allday sp) u (obj s' r) ->
  match o with
  | OCreate _ sp0 _ => r = List.length (sys_heap s) /\ x = Ok tt /\ sp = sp0
  | OAttendeeCreate i sp0 _ => r = List.length (sys_heap s) /\ x = Ok tt /\ sp = with_spec_organizer sp0 i
  | OSpecify k sp0 => k = r /\ (r < List.length (sys_heap s))%nat /\ sp = sp0
  | OImport c (Ok (Some vs)) _ _ _ => exists v, In v vs /\ v_uid v = Some u /\ import_spec (cf_tz cf) (source_knows s) (main_attendee s c) v = Ok sp
  | _ => False
  end ->
  gives cf h1 o x r (obj s' r) (s_dtstart sp) (s_duration sp)
  /\ ((made h1 <=? r)%nat && e_allday (obj s' r) = false -> e_dtstart (obj s' r) = s_dtstart sp /\ e_duration (obj s' r) = s_duration sp)
  /\ ((made h1 <=? r)%nat && e_allday (obj s' r) = true -> (forall y, s_duration sp = Some y -> 0 <= y) -> whole_days (s_dtstart sp) (s_duration sp) (obj s' r))
  /\ get_organizer_id (obj s' r) = s_organizer sp /\ e_uid (obj s' r) = u.
Proof.
  intros H E Hr F W. rewrite (made_heap cf s h1 H). unfold from_spec in F.
  assert (SP : as_specified sp (obj s' r) /\ get_organizer_id (obj s' r) = s_organizer sp /\ e_uid (obj s' r) = u).
  { destruct (_ && _).
    - destruct (allday_rest (base sp u)) as (R1 & R2 & R3 & R4 & R5 & R6 & R7 & R8 & R9 & R10 & R11 & R12 & _). unfold same_attrs in F. decompose [and] F.
      unfold as_specified, get_organizer_id. cbn in R1, R2, R3, R4, R5, R6, R7, R8, R9, R10, R11, R12. repeat split; congruence.
    - unfold same_attrs in F. decompose [and] F. unfold as_specified, get_organizer_id. repeat split; assumption. }
  destruct SP as (SP & OR & UU). assert (AL : e_allday (obj s' r) = s_allday sp) by apply SP.
  split; [|split; [|split; [|split; [exact OR|exact UU]]]].
  - unfold gives. rewrite (made_heap cf s h1 H). destruct o; try contradiction.
    + destruct W as (-> & -> & ->). auto.
    + destruct W as (-> & -> & ->). repeat (split; [reflexivity|]). split; [exact SP|]. auto.
    + destruct W as (-> & L & ->). auto.
    + destruct parsed as [[vs|]| |]; try contradiction. destruct W as (v & V & U & IS).
      destruct (import_spec_says _ _ _ _ _ IS) as ((d & D & T) & _ & X). exists v, d. split; [exact V|]. split; [congruence|].
      split; [|split; [exact D|now rewrite AL]]. apply X. unfold agrees_text. unfold as_specified in SP. decompose [and] SP.
      repeat (split; [assumption|]). split; [intros q; now replace (e_categories (obj s' r)) with (s_categories sp) by congruence|].
      repeat (split; [assumption|]). replace (e_recurrence (obj s' r)) with (s_recurrence sp) by congruence. apply opt_rule_refl.
  - intros Q. rewrite AL in Q. rewrite Q in F. unfold same_attrs in F. decompose [and] F. split; assumption.
  - intros Q N. rewrite AL in Q. rewrite Q in F. apply (whole_same _ _ _ _ F). apply whole_made; [reflexivity|reflexivity|exact N].
Qed.

(** * C141 *)
Theorem C141_given : forall cf s h r, history cf s h -> (r < made h)%nat ->
  let e := obj s r in
  exists h1 o n x h2 t d, h = h1 ++ (o, n, x) :: h2 /\ gives cf h1 o x r e t d
  /\ (forall o' n' x', In (o', n', x') h2 -> ~ replaces r o')
  /\ let whole := (made h1 <=? r)%nat && e_allday e || existsb (adjusts r) h2 in
     (whole = false -> e_dtstart e = t /\ e_duration e = d)
     /\ (whole = true -> (forall y, d = Some y -> 0 <= y) -> whole_days t d e).
Proof.
  intros cf s h r H. pose proof (made_heap cf s h H) as M. rewrite M. clear M.
  induction H as [|s h o s' n x H IH E]; [cbn; lia|]. intros Hr. cbv zeta.
  destruct (history_tracks cf s h H) as [SI _].
  destruct (step_gives cf s o s' n x r SI E Hr) as [(L & NR & NA & SA)|[(L & -> & SA)|[(sp & L & -> & OB)|(sp & u & F & W)]]].
  - destruct (IH L) as (h1 & o0 & n0 & x0 & h2 & t & d & -> & G & NL & T1 & T2).
    exists h1, o0, n0, x0, (h2 ++ [(o, n, x)]), t, d. split; [now rewrite <- app_assoc|]. split; [now apply (same_gives _ _ _ _ _ (obj s r))|].
    split. { intros o' n' x' I. apply in_app_or in I as [I|[I|[]]]; [now apply (NL o' n' x')|]. injection I as <- <- <-. exact NR. }
    rewrite existsb_app. cbn [existsb]. rewrite NA, !orb_false_r.
    assert (AL : e_allday (obj s' r) = e_allday (obj s r)) by apply SA. rewrite AL. split.
    + intros Q. destruct (T1 Q) as [Q1 Q2]. unfold same_attrs in SA. decompose [and] SA. split; congruence.
    + intros Q N. apply (whole_same _ _ _ _ SA). auto.
  - destruct (IH L) as (h1 & o0 & n0 & x0 & h2 & t & d & -> & G & NL & T1 & T2).
    exists h1, o0, n0, x0, (h2 ++ [(OAdjust r, n, x)]), t, d. split; [now rewrite <- app_assoc|].
    split; [apply (same_gives _ _ _ _ _ (allday_adjust (obj s r))); [exact SA|now apply adjust_gives]|].
    split. { intros o' n' x' I. apply in_app_or in I as [I|[I|[]]]; [now apply (NL o' n' x')|]. injection I as <- <- <-. intros []. }
    rewrite existsb_app. cbn [existsb adjusts]. rewrite Nat.eqb_refl. cbn [orb]. rewrite !orb_true_r. split; [discriminate|].
    intros _ N. apply (whole_same _ _ _ _ SA). destruct ((made h1 <=? r)%nat && e_allday (obj s r) || existsb (adjusts r) h2) eqn:B.
    + apply whole_again. auto.
    + destruct (T1 eq_refl) as [Q1 Q2]. now apply whole_made.
  - exists h, (OAssign r sp), n, x, [], (s_dtstart sp), (s_duration sp). split; [reflexivity|]. rewrite OB.
    split; [unfold gives; rewrite (made_heap cf s h H); repeat split; exact L|]. split; [intros ? ? ? []|].
    cbn [existsb]. rewrite orb_false_r, (made_heap cf s h H). replace (List.length (sys_heap s) <=? r)%nat with false by (symmetry; apply Nat.leb_gt; lia).
    cbn [andb]. split; [split; reflexivity|discriminate].
  - destruct (from_gives cf s h o n x r s' sp u H E Hr F W) as (G & T1 & T2 & _).
    exists h, o, n, x, [], (s_dtstart sp), (s_duration sp). split; [reflexivity|]. split; [exact G|]. split; [intros ? ? ? []|].
    cbn [existsb]. rewrite orb_false_r. auto.
Qed.
Print Assumptions C141_given.

(** and so was its organizer, whom assigning attributes does not change *)
Theorem C141_organizer : forall cf s h r, history cf s h -> (r < made h)%nat ->
  exists h1 o n x h2, h = h1 ++ (o, n, x) :: h2 /\ gives_organizer h1 o x r (obj s r)
  /\ forall sp n' x', ~ In (OSpecify r sp, n', x') h2.
Proof.
  intros cf s h r H. pose proof (made_heap cf s h H) as M. rewrite M. clear M.
  induction H as [|s h o s' n x H IH E]; [cbn; lia|]. intros Hr.
  destruct (history_tracks cf s h H) as [SI _].
  assert (KE : (r < List.length (sys_heap s))%nat -> get_organizer_id (obj s' r) = get_organizer_id (obj s r) -> e_uid (obj s' r) = e_uid (obj s r) ->
     (forall sp, o <> OSpecify r sp) ->
     exists h1 o1 n1 x1 h2, h ++ [(o, n, x)] = h1 ++ (o1, n1, x1) :: h2 /\ gives_organizer h1 o1 x1 r (obj s' r) /\ forall sp n' x', ~ In (OSpecify r sp, n', x') h2).
  { intros L O U NO. destruct (IH L) as (h1 & o1 & n1 & x1 & h2 & -> & G & N). exists h1, o1, n1, x1, (h2 ++ [(o, n, x)]).
    split; [now rewrite <- app_assoc|]. split; [unfold gives_organizer in *; rewrite O, U; exact G|].
    intros sp n' x' I. apply in_app_or in I as [I|[I|[]]]; [now apply N in I|]. injection I as -> _ _. now apply (NO sp). }
  destruct (step_gives cf s o s' n x r SI E Hr) as [(L & NR & _ & SA)|[(L & -> & SA)|[(sp & L & -> & OB)|(sp & u & F & W)]]].
  - apply KE; [exact L|apply SA|apply SA|]. intros sp ->. now apply NR.
  - destruct (allday_rest (obj s r)) as (R1 & _ & _ & _ & _ & _ & _ & _ & _ & _ & _ & R12 & _).
    apply KE; [exact L| | |discriminate]; unfold get_organizer_id; unfold same_attrs in SA; decompose [and] SA; congruence.
  - apply KE; [exact L|now rewrite OB|now rewrite OB|discriminate].
  - destruct (from_gives cf s h o n x r s' sp u H E Hr F W) as (_ & _ & _ & OR & UU).
    exists h, o, n, x, []. split; [reflexivity|]. split; [|intros ? ? ? []]. unfold gives_organizer. rewrite (made_heap cf s h H).
    destruct o; try contradiction.
    + destruct W as (-> & -> & ->). auto.
    + destruct W as (-> & -> & ->). auto.
    + destruct W as (-> & L & ->). auto.
    + destruct parsed as [[vs|]| |]; try contradiction. destruct W as (v & V & U & IS).
      exists v. split; [exact V|]. split; [congruence|]. destruct (import_spec_says _ _ _ _ _ IS) as (_ & SO & _).
      unfold says_organizer in SO. rewrite OR.
      assert (KN : forall i, source_knows s i = true <-> registered h i <> None).
      { intros i. unfold source_knows. rewrite (history_registered cf s h H). destruct (registered h i); intuition congruence. }
      assert (MA : main_attendee s c = Ok (s_organizer sp) -> (c < calendars h)%nat ->
        match s_organizer sp with Some i => member h c i = true /\ registered h i <> None | None => forall i, member h c i = false end).
      { intros M LC. pose proof (C67_main cf s h c H LC) as X. rewrite M in X. exact X. }
      destruct (v_organizer v) as [i|].
      * destruct (source_knows s i) eqn:K.
        -- left. exists i. split; [reflexivity|]. split; [now apply KN|exact SO].
        -- right. split; [|now apply MA]. intros j J. injection J as <-. destruct (registered h i) eqn:RI; [|reflexivity].
           assert (source_knows s i = true) by (apply KN; congruence). congruence.
      * right. split; [discriminate|now apply MA].
Qed.
Print Assumptions C141_organizer.

(** a history: an event is created, assigned to, shared, moved by an import and
    made into whole days; a further one lasts whole days from the start *)
Definition told (cf : config) (ops : list op) : system * list record :=
  fold_left (fun sh o => let '(s', n, x) := step cf (fst sh) o in (s', snd sh ++ [(o, n, x)])) ops (init, []).

Lemma told_history cf ops : history cf (fst (told cf ops)) (snd (told cf ops)).
Proof.
  unfold told. rewrite <- fold_left_rev_right. induction (rev ops) as [|o l IH]; [constructor|]. cbn [fold_right].
  destruct (fold_right _ (init, []) l) as [s h]. cbn [fst snd] in *. destruct (step cf s o) as [[s' n] x] eqn:E. cbn [fst snd].
  now apply (history_step cf s h o s' n x).
Qed.

Definition moving : vevent := x_event "a1" 732502 "Moved" [].
Definition the_import : op := OImport 0 (Ok (Some [moving])) (None, None) None false.
Definition moves : list op :=
  office ++ [OAssign 0 (p_spec (p_at 732600 9) None true bob []); OInvite 0 [bob]; the_import; OAdjust 0;
             OAttendeeCreate "bob" (p_spec (p_at 732503 15) (Some (DAY + HOUR)) true ann []) 0]%string.

Example C141_case : let s := fst (told cf0 moves) in let h := snd (told cf0 moves) in
  history cf0 s h /\ made h = 4%nat
  /\ (exists n x h2, h = firstn 9 h ++ (the_import, n, x) :: h2 /\ existsb (adjusts 0) h2 = true
      /\ gives cf0 (firstn 9 h) the_import x 0 (obj s 0) (p_at 732502 9) (Some HOUR)
      /\ gives_organizer (firstn 9 h) the_import x 0 (obj s 0))
  /\ e_title (obj s 0) = "Moved"%string /\ e_dtstart (obj s 0) = p_at 732502 0 /\ e_duration (obj s 0) = Some DAY
  /\ get_organizer_id (obj s 0) = ann
  /\ e_title (obj s 3) = "Meeting"%string /\ e_dtstart (obj s 3) = p_at 732503 0 /\ e_duration (obj s 3) = Some (2 * DAY)
  /\ get_organizer_id (obj s 3) = bob.
Proof.
  cbv zeta. split; [apply told_history|]. split; [vm_compute; reflexivity|].
  split; [|do 6 (split; [vm_compute; reflexivity|]); split; vm_compute; reflexivity].
  exists [NModified "a1"%string], (Ok tt), (skipn 10 (snd (told cf0 moves))).
  split; [vm_compute; reflexivity|]. split; [vm_compute; reflexivity|]. split.
  - exists moving, HOUR. split; [now left|]. split; [vm_compute; reflexivity|]. split; [|split; [reflexivity|]].
    + vm_compute. repeat split; intros; congruence || tauto.
    + exists (IFloat (p_at 732502 9)). split; [reflexivity|]. split; [vm_compute; reflexivity|]. split; [vm_compute; reflexivity|]. vm_compute. reflexivity.
  - exists moving. split; [now left|]. split; [vm_compute; reflexivity|]. right. split; [discriminate|]. intros _. vm_compute. split; [reflexivity|discriminate].
Qed.
