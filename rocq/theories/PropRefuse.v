(** Property theorems C151: which calls raise, what, and what they leave behind
    (cal.py 87-105, 139-150, 267-277, 413-440, 607-609, 671-675). *)
From Verif Require Import Base PyDate DateFacts Recurrent CalTime TimeProofs Event Storage ICal System
  QueryProofs BlockProofs EventProofs SpecProofs SystemProofs StoreProofs IdProofs ImportProofs ImportTwice PropEvent PropSystem PropSpec PropErrors.
From Coq Require Import ZifyBool.
Ltac Zify.zify_post_hook ::= Z.div_mod_to_equations.
Local Opaque ord2ymd year_of month_of day_of ymd2ord days_in_month is_leap.

(** ** specification *)
Definition five_statuses : list string := ["NEEDS-ACTION"; "ACCEPTED"; "DECLINED"; "TENTATIVE"; "DELEGATED"]%string.

(** the first entry of the attendee list of a specification that is refused ([refused], C81) *)
Definition first_refused (before : string -> option string) (l : list (attendee * string * option string)) (x : exn) : Prop :=
  exists l1 a ro st l2, l = l1 ++ (a, ro, st) :: l2 /\ refused before l1 a ro st x
    /\ forall k1 b ro' st' k2 y, l1 = k1 ++ (b, ro', st') :: k2 -> ~ refused before k1 b ro' st' y.

(** at first only the organizer takes part in a new event *)
Definition organizer_only (o : option string) (i : string) : option string :=
  match o with Some j => if String.eqb j i then Some "ACCEPTED"%string else None | None => None end.

(** [x] is what the call raises; an import is C147 *)
Definition call_fails (s : system) (o : op) (x : exn) : Prop :=
  match o with
  | OCreate _ sp _ => first_refused (organizer_only (s_organizer sp)) (s_attendees sp) x
  | OAttendeeCreate i sp _ => first_refused (organizer_only (Some i)) (s_attendees sp) x
  | ODelete r => has_event s (e_uid (obj s r)) = false /\ x = KeyError
  | OInvite _ l => In None l /\ x = AttributeError
  | OSetStatus r a st =>
      (exists w, st = Some w /\ ~ In w five_statuses /\ x = AssertionError)
      \/ ((forall w, st = Some w -> In w five_statuses) /\
          (a = None /\ x = AttributeError
           \/ exists i, a = Some i /\ st = None /\ x = KeyError
              /\ get_status (obj s r) (Some i) <> Ok None /\ get_role (obj s r) (Some i) = Ok None))
  | OSetRole _ a ro => (~ In ro four_roles /\ x = AssertionError) \/ (In ro four_roles /\ a = None /\ x = AttributeError)
  | OSpecify r sp => first_refused (status_as sp (obj s r)) (s_attendees sp) x
  | OAddAttendee _ a => a = None /\ x = AttributeError
  | ORemoveAttendee c a => (a = None /\ x = AttributeError) \/ (exists i, a = Some i /\ ~ In i (dkeys (cal s c)) /\ x = KeyError)
  | OAdjust _ | OAssign _ _ | OAttendee _ _ _ | OCalendar => False
  | OImport _ _ _ _ _ => False
  end.

(** what a call that raised has done *)
Definition call_left (cf : config) (s : system) (o : op) (s' : system) (n : list notification) : Prop :=
  match o with
  | OInvite r l => exists l1 l2, l = l1 ++ None :: l2 /\ step cf s (OInvite r l1) = (s', n, Ok tt)
  | OSetStatus r (Some i) None =>
      n = [] /\ sys_store s' = sys_store s /\ sys_source s' = sys_source s /\ sys_cals s' = sys_cals s
      /\ (forall k, k <> r -> obj s' k = obj s k)
      /\ obj s' r = with_state (obj s r) (e_state (obj s' r))
      /\ get_status (obj s' r) (Some i) = Ok None
      /\ forall j, j <> i -> get_status (obj s' r) (Some j) = get_status (obj s r) (Some j)
  | OSpecify r sp =>
      n = [] /\ sys_store s' = sys_store s /\ sys_source s' = sys_source s /\ sys_cals s' = sys_cals s
      /\ (forall k, k <> r -> obj s' k = obj s k)
      /\ let e := obj s' r in e_uid e = e_uid (obj s r) /\ e_dtstart e = s_dtstart sp /\ e_duration e = s_duration sp
         /\ e_title e = s_title sp /\ e_description e = s_description sp /\ e_location e = s_location sp
         /\ e_status e = s_status sp /\ e_recurrence e = s_recurrence sp /\ e_allday e = s_allday sp
         /\ e_categories e = s_categories sp /\ e_transparent e = s_transparent sp /\ e_access e = s_access sp
         /\ e_document e = s_document sp /\ e_organizer e = s_organizer sp
  | _ => s' = s /\ n = []
  end.

(** the object the call is made on exists *)
Definition on_existing (s : system) (o : op) : Prop :=
  match o with
  | OSetStatus r _ _ | OSpecify r _ => (r < List.length (sys_heap s))%nat
  | _ => True
  end.

(** ** proofs *)
Lemma refused_one before l1 a ro st x y : refused before l1 a ro st x -> refused before l1 a ro st y -> x = y.
Proof. intros A B. inversion A; subst; inversion B; subst; congruence. Qed.

Lemma refused_ext f g l1 a ro st x : (forall i, f i = g i) -> refused f l1 a ro st x -> refused g l1 a ro st x.
Proof. intros E A. inversion A; subst; constructor; auto. now rewrite <- E. Qed.

Lemma first_refused_ext f g l x : (forall i, f i = g i) -> first_refused f l x -> first_refused g l x.
Proof.
  intros E (l1 & a & ro & st & l2 & -> & R & N). exists l1, a, ro, st, l2. split; [reflexivity|]. split; [now apply (refused_ext f)|].
  intros k1 b ro' st' k2 y EQ X. apply (N k1 b ro' st' k2 y EQ). now apply (refused_ext g).
Qed.

Lemma first_refused_one before l x y : first_refused before l x -> first_refused before l y -> x = y.
Proof.
  intros (l1 & a & ro & st & l2 & -> & R & N) (k1 & b & ro' & st' & k2 & E & R' & N').
  revert k1 E R' N' N R. 
  assert (G : forall (p q : list (attendee * string * option string)) u v s t, p ++ u :: s = q ++ v :: t ->
    (p = q /\ u = v) \/ (exists m, p = q ++ v :: m) \/ (exists m, q = p ++ u :: m)).
  { induction p as [|z p IH]; intros [|z' q] u v s t E; cbn in E; injection E as E1 E2.
    - left. auto.
    - right. right. subst z'. exists q. reflexivity.
    - right. left. subst z. exists p. reflexivity.
    - subst z'. destruct (IH q u v s t E2) as [[-> ->]|[(m & ->)|(m & ->)]]; [left; auto|right; left; exists m; reflexivity|right; right; exists m; reflexivity]. }
  intros k1 E R' N' N R. destruct (G _ _ _ _ _ _ E) as [[-> X]|[(m & ->)|(m & ->)]].
  - injection X as <- <- <-. exact (refused_one _ _ _ _ _ _ _ R R').
  - destruct (N k1 b ro' st' m y eq_refl R').
  - destruct (N' l1 a ro st m x eq_refl R).
Qed.

Lemma set_attendees_app e l1 : forall l2, set_attendees e (l1 ++ l2) = mbind (set_attendees e l1) (fun e1 => set_attendees e1 l2).
Proof.
  revert e. induction l1 as [|[[a ro] st] l1 IH]; intros e l2; cbn [app set_attendees].
  - cbn [mbind]. destruct (set_attendees e l2) as [[e' n'] r']. reflexivity.
  - destruct (mbind (set_role e a ro) (fun e1 => set_status_raw e1 a st)) as [[e1 n1] [[]|x|]]; cbn [mbind]; try reflexivity.
    rewrite IH. destruct (set_attendees e1 l1) as [[e2 n2] [[]|x|]]; cbn [mbind]; try reflexivity.
    destruct (set_attendees e2 l2) as [[e3 n3] r3]. rewrite app_assoc. reflexivity.
Qed.

Lemma entries_decide e : dicts_ok e -> forall l, decides (mres (set_attendees e l)) (first_refused (fun i => dget (e_state e) i) l)
  /\ mnotes (set_attendees e l) = [].
Proof.
  intros D. assert (K : forall m l, (List.length l <= m)%nat -> decides (mres (set_attendees e l)) (first_refused (fun i => dget (e_state e) i) l)
    /\ mnotes (set_attendees e l) = []).
  { induction m as [m IH] using (well_founded_induction lt_wf). intros l L.
    destruct (entries_exact l e D) as [(e' & E & H1 & H2 & _)|(e' & x & l1 & a & ro & st & l2 & E & -> & RF & _)]; rewrite E; cbn [mres mnotes fst snd]; (split; [|reflexivity]).
    - left. exists tt. split; [reflexivity|]. intros y (l1 & a & ro & st & l2 & EQ & RF & _).
      assert (IN : In (a, ro, st) l) by (rewrite EQ; apply in_app_iff; right; now left).
      destruct (H1 a ro st IN) as [N1 N2]. inversion RF as [? ? ? RR|? ? RR|k ? RR NN]; subst; [contradiction|congruence|].
      exact (H2 l1 k ro l2 eq_refl NN).
    - right. exists x. split; [reflexivity|].
      assert (F : first_refused (fun i => dget (e_state e) i) (l1 ++ (a, ro, st) :: l2) x).
      { rewrite app_length in L. cbn [List.length] in L.
        destruct (IH (List.length l1) ltac:(lia) l1 (le_n _)) as [[(u & E1 & N)|(x1 & E1 & Q)] _].
        - exists l1, a, ro, st, l2. split; [reflexivity|]. split; [exact RF|]. intros k1 b ro' st' k2 y EQ R'.
          (* the first refused entry up to this one *)
          destruct (entries_exact l1 e D) as [(e1 & E2 & H1 & H2 & _)|(e1 & x2 & q1 & qa & qro & qst & q2 & E2 & _)]; [|unfold mres in E1; rewrite E2 in E1; discriminate].
          assert (IN : In (b, ro', st') l1) by (rewrite EQ; apply in_app_iff; right; now left).
          destruct (H1 b ro' st' IN) as [N1 N2]. inversion R' as [? ? ? RR|? ? RR|k ? RR NN]; subst; [contradiction|congruence|].
          exact (H2 k1 k ro' k2 eq_refl NN).
        - pose proof (set_attendees_app e l1 ((a, ro, st) :: l2)) as A. unfold mres in E1. destruct (set_attendees e l1) as [[e1 n1] r1]. cbn [snd] in E1. subst r1.
          cbn [mbind] in A. rewrite E in A. injection A as _ _ A. subst x1.
          destruct (proj2 (Q x) eq_refl) as (k1 & b & ro' & st' & k2 & -> & R' & N'). exists k1, b, ro', st', (k2 ++ (a, ro, st) :: l2).
          rewrite <- app_assoc. split; [reflexivity|]. split; [exact R'|exact N']. }
      intros y. split; [intros Y; exact (first_refused_one _ _ _ _ Y F)|intros ->; exact F]. }
  intros l. exact (K (List.length l) l (le_n _)).
Qed.

Lemma specify_decides e sp : dicts_ok e -> decides (mres (set_on_object sp e)) (first_refused (status_as sp e) (s_attendees sp)).
Proof.
  intros D. rewrite set_on_object_eq. pose proof (start_of_entries sp e D) as X. cbv zeta in X.
  destruct (s_organizer sp) as [o|] eqn:O; destruct X as [D' V];
    (eapply decides_ext; [apply (proj1 (entries_decide _ D' (s_attendees sp)))|]);
    intros y; split; apply first_refused_ext; intros i; rewrite (proj1 (V i)); reflexivity.
Qed.

Lemma create_decides u sp : decides (new_event u sp) (first_refused (organizer_only (s_organizer sp)) (s_attendees sp)).
Proof.
  assert (D : dicts_ok (blank u)) by (split; constructor). pose proof (specify_decides (blank u) sp D) as H.
  assert (EQ : forall i, status_as sp (blank u) i = organizer_only (s_organizer sp) i).
  { intros i. unfold status_as, organizer_only. destruct (s_organizer sp); reflexivity. }
  unfold new_event. unfold mres in H. destruct (set_on_object sp (blank u)) as [[e n] r]. cbn [snd] in H.
  eapply decides_ext with (P := first_refused (status_as sp (blank u)) (s_attendees sp)).
  - destruct H as [([] & -> & N)|(x & -> & Q)]; [left; eexists; split; [reflexivity|exact N]|right; exists x; split; [reflexivity|exact Q]].
  - intros y. split; apply first_refused_ext; auto.
Qed.

Lemma invite_decides l : forall e, decides (mres (invite e l)) (fun x => In None l /\ x = AttributeError).
Proof.
  induction l as [|[i|] l IH]; intros e; cbn [invite].
  - left. exists tt. split; [reflexivity|]. intros y [[] _].
  - cbn [get_status attendee_id rbind]. destruct (dget (e_state e) i) eqn:S.
    + eapply decides_ext; [apply IH|]. intros y. cbn [In]. intuition discriminate.
    + unfold set_status. change (str_in "NEEDS-ACTION" statuses) with true. cbn [get_status attendee_id rbind]. rewrite S.
      cbn [opt_str_eqb]. unfold set_status_raw. cbn [attendee_id mbind]. unfold set_role. change (str_in "REQ-PARTICIPANT" roles) with true. cbn [attendee_id mbind app].
      match goal with |- context [invite ?q l] => pose proof (IH q) as X; destruct (invite q l) as [[e' n'] r'] end. cbn [mres snd] in *.
      eapply decides_ext; [exact X|]. intros y. cbn [In]. intuition discriminate.
  - right. exists AttributeError. split; [reflexivity|]. intros y. cbn [In]. intuition.
Qed.

Lemma not_str_in w l : str_in w l = false <-> ~ In w l.
Proof. rewrite <- (str_in_iff w l). destruct (str_in w l); split; congruence. Qed.

Lemma set_status_decides e a st : dicts_ok e -> decides (mres (set_status e a st)) (fun x =>
      (exists w, st = Some w /\ ~ In w five_statuses /\ x = AssertionError)
      \/ ((forall w, st = Some w -> In w five_statuses) /\
          (a = None /\ x = AttributeError
           \/ exists i, a = Some i /\ st = None /\ x = KeyError
              /\ get_status e (Some i) <> Ok None /\ get_role e (Some i) = Ok None))).
Proof.
  intros D. unfold set_status. change statuses with five_statuses.
  destruct (match st with None => true | Some s => str_in s five_statuses end) eqn:OKS.
  - assert (G : forall w, st = Some w -> In w five_statuses) by (intros w ->; now apply str_in_iff).
    assert (NB : forall x, ~ exists w, st = Some w /\ ~ In w five_statuses /\ x = AssertionError) by (intros x (w & E & N & _); exact (N (G w E))).
    destruct a as [i|]; cbn [get_status attendee_id rbind].
    + destruct (opt_str_eqb (dget (e_state e) i) st) eqn:SAME.
      * left. exists tt. split; [reflexivity|]. intros y [X|[_ [[X _]|(j & J & S & _ & N & _)]]]; [exact (NB y X)|discriminate|].
        injection J as <-. subst st. unfold get_status in N. cbn in N. destruct (dget (e_state e) i); [discriminate SAME|now apply N].
      * destruct st as [s|].
        -- unfold set_status_raw. cbn [attendee_id mbind]. left. exists tt. split; [reflexivity|].
           intros y [X|[_ [[X _]|(j & J & S & _)]]]; [exact (NB y X)|discriminate|discriminate].
        -- unfold set_status_raw, ddel. cbn [attendee_id]. destruct (dget (e_state e) i) as [s|] eqn:S; [|discriminate SAME].
           cbn [e_role with_state]. destruct (dget (e_role e) i) as [ro|] eqn:R.
           ++ cbn [mbind]. left. exists tt. split; [reflexivity|].
              intros y [X|[_ [[X _]|(j & J & _ & _ & _ & N)]]]; [exact (NB y X)|discriminate|]. injection J as <-. unfold get_role in N. cbn in N. rewrite R in N. discriminate.
           ++ cbn [mbind]. right. exists KeyError. split; [reflexivity|]. intros y. split.
              ** intros [X|[_ [[X _]|(j & _ & _ & -> & _)]]]; [destruct (NB y X)|discriminate|reflexivity].
              ** intros ->. right. split; [exact G|]. right. exists i. repeat split; [unfold get_status|unfold get_role]; cbn; [rewrite S; discriminate|rewrite R; reflexivity].
    + right. exists AttributeError. split; [reflexivity|]. intros y. split.
      * intros [X|[_ [[_ ->]|(j & J & _)]]]; [destruct (NB y X)|reflexivity|discriminate].
      * intros ->. right. split; [exact G|]. left. auto.
  - destruct st as [w|]; [|discriminate]. apply not_str_in in OKS. right. exists AssertionError. split; [reflexivity|]. intros y. split.
    + intros [(w' & E & _ & ->)|[G _]]; [reflexivity|]. destruct (OKS (G w eq_refl)).
    + intros ->. left. eauto.
Qed.

Lemma set_role_decides e a ro : decides (mres (set_role e a ro)) (fun x =>
  (~ In ro four_roles /\ x = AssertionError) \/ (In ro four_roles /\ a = None /\ x = AttributeError)).
Proof.
  unfold set_role. change roles with four_roles. destruct (str_in ro four_roles) eqn:R.
  - apply str_in_iff in R. destruct a as [i|]; cbn [attendee_id].
    + left. exists tt. split; [reflexivity|]. intros y [[N _]|(_ & X & _)]; [contradiction|discriminate].
    + right. exists AttributeError. split; [reflexivity|]. intros y. intuition.
  - apply not_str_in in R. right. exists AssertionError. split; [reflexivity|]. intros y. intuition.
Qed.

Lemma on_event_decides s r f P : decides (mres (f (obj s r))) P -> decides (srs (on_event s r f)) P.
Proof. unfold on_event, mres, srs. destruct (f (obj s r)) as [[e n] x]. exact (fun H => H). Qed.

Lemma drop_decides {A} (m : smut A) P : decides (srs m) P -> decides (srs (drop m)) P.
Proof.
  unfold drop, srs. destruct m as [[s n] r]. cbn [snd]. intros [(a & -> & N)|(x & -> & Q)]; [left; exists tt; auto|right; exists x; auto].
Qed.

Lemma create_event_decides cf s u sp now : decides (srs (create_event cf s u sp now)) (first_refused (organizer_only (s_organizer sp)) (s_attendees sp)).
Proof.
  unfold create_event. match goal with |- context [new_event ?w sp] => destruct (create_decides w sp) as [(e & -> & N)|(x & -> & Q)] end.
  - left. eexists. split; [reflexivity|exact N].
  - right. exists x. split; [reflexivity|exact Q].
Qed.

Definition no_import (o : op) : Prop := match o with OImport _ _ _ _ _ => False | _ => True end.

Lemma call_decides cf s o : reachable cf s -> no_import o -> decides (srs (step cf s o)) (call_fails s o).
Proof.
  intros H NI. change (decides (srs (step cf s o)) (fun x => call_fails s o x)). destruct o; cbn [step call_fails]; try (now destruct NI).
  - apply drop_decides, create_event_decides.
  - apply drop_decides. apply (create_event_decides cf s None (with_spec_organizer sp i) now).
  - unfold delete_event, ddel, has_event, get_event. destruct (dget (sys_store s) (e_uid (obj s r))).
    + left. exists tt. split; [reflexivity|]. intros y [X _]. discriminate X.
    + right. exists KeyError. split; [reflexivity|]. intros y. intuition.
  - apply on_event_decides, invite_decides.
  - apply on_event_decides, set_status_decides. now apply (reachable_dicts_ok cf s).
  - apply on_event_decides, set_role_decides.
  - left. exists tt. split; [reflexivity|auto].
  - left. exists tt. split; [reflexivity|auto].
  - apply on_event_decides. apply specify_decides. now apply (reachable_dicts_ok cf s).
  - left. exists tt. split; [reflexivity|auto].
  - left. exists tt. split; [reflexivity|auto].
  - unfold add_attendee. destruct a as [i|]; cbn [attendee_id]; [left; exists tt; split; [reflexivity|intros y [X _]; discriminate]|].
    right. exists AttributeError. split; [reflexivity|]. intros y. intuition.
  - unfold remove_attendee, ddel. destruct a as [i|]; cbn [attendee_id rbind].
    + pose proof (dget_none (cal s c) i) as G. destruct (dget (cal s c) i) as [u|].
      * left. exists tt. split; [reflexivity|]. intros y [[X _]|(j & J & N & _)]; [discriminate|]. injection J as <-. apply G in N. discriminate.
      * right. exists KeyError. split; [reflexivity|]. intros y. split; [intros [[X _]|(j & _ & _ & ->)]; [discriminate|reflexivity]|].
        intros ->. right. exists i. split; [reflexivity|]. split; [|reflexivity]. now apply G.
    + right. exists AttributeError. split; [reflexivity|]. intros y. split; [intros [[_ ->]|(j & J & _)]; [reflexivity|discriminate]|intros ->; left; auto].
Qed.

Theorem C151_raises cf s o x : reachable cf s -> no_import o -> (srs (step cf s o) = Raise x <-> call_fails s o x).
Proof. intros H N. apply decides_iff. now apply call_decides. Qed.
Print Assumptions C151_raises.

(** ** what is left *)
Lemma same_heap s r : with_heap s (replace_nth r (sys_heap s) (obj s r)) = s.
Proof. unfold obj. rewrite replace_nth_self. destruct s. reflexivity. Qed.

Lemma on_event_at s r f k : (r < List.length (sys_heap s))%nat ->
  obj (sst (on_event s r f)) k = if (k =? r)%nat then mev (f (obj s r)) else obj s k.
Proof.
  intros L. unfold on_event, mev. destruct (f (obj s r)) as [[e n] x]. unfold sst. cbn [fst]. rewrite obj_heap, replace_nth_get.
  apply Nat.ltb_lt in L. rewrite L. rewrite andb_true_r. reflexivity.
Qed.

Lemma on_event_keeps s r f : sys_store (sst (on_event s r f)) = sys_store s /\ sys_source (sst (on_event s r f)) = sys_source s
  /\ sys_cals (sst (on_event s r f)) = sys_cals s.
Proof. unfold on_event. destruct (f (obj s r)) as [[e n] x]. repeat split. Qed.

Lemma invite_app l1 : forall e l2, invite e (l1 ++ l2) = mbind (invite e l1) (fun e1 => invite e1 l2).
Proof.
  induction l1 as [|a l1 IH]; intros e l2; cbn [app invite].
  - cbn [mbind]. destruct (invite e l2) as [[e' n'] r']. reflexivity.
  - destruct (get_status e a) as [[w|]|x|]; [apply IH| |reflexivity|reflexivity].
    destruct (mbind (set_status e a (Some "NEEDS-ACTION"%string)) (fun e1 => set_role e1 a "REQ-PARTICIPANT")) as [[e1 n1] [[]|x|]]; cbn [mbind]; try reflexivity.
    rewrite IH. destruct (invite e1 l1) as [[e2 n2] [[]|x|]]; cbn [mbind]; try reflexivity.
    destruct (invite e2 l2) as [[e3 n3] r3]. rewrite app_assoc. reflexivity.
Qed.

Lemma first_nobody (l : list attendee) : In None l -> exists l1 l2, l = l1 ++ None :: l2 /\ ~ In None l1.
Proof.
  induction l as [|[i|] l IH]; intros I; [destruct I| |exists [], l; auto].
  destruct I as [I|I]; [discriminate|]. destruct (IH I) as (l1 & l2 & -> & N). exists (Some i :: l1), l2. split; [reflexivity|]. intros [X|X]; [discriminate|auto].
Qed.

Lemma drop_create_left cf s u sp now s' n x : drop (create_event cf s u sp now) = (s', n, Raise x) -> s' = s /\ n = [].
Proof.
  unfold drop. pose proof (create_spec cf s u sp now) as C. cbv zeta in C. destruct C as [(r & e & -> & _)|(A & B & _)]; [discriminate|].
  destruct (create_event cf s u sp now) as [[s1 n1] r1]. unfold sst in A. unfold snt in B. cbn in A, B. subst. destruct r1; intros X; injection X; auto.
Qed.

Theorem C151_left cf s o s' n x : reachable cf s -> no_import o -> on_existing s o ->
  step cf s o = (s', n, Raise x) -> call_left cf s o s' n.
Proof.
  intros H NI EX E.
  assert (F : call_fails s o x) by (apply (C151_raises cf); [exact H|exact NI|]; rewrite E; reflexivity).
  destruct o; cbn [call_left]; try (now destruct NI); cbn [on_existing] in EX.
  - now apply drop_create_left in E.
  - now apply drop_create_left in E.
  - cbn [step] in E. unfold delete_event, ddel in E. destruct (dget (sys_store s) (e_uid (obj s r))); [discriminate|]. injection E as <- <- _. auto.
  - destruct F as [I ->]. destruct (first_nobody l I) as (l1 & l2 & -> & N). exists l1, l2. split; [reflexivity|].
    cbn [step] in *. unfold on_event in *. rewrite invite_app in E. pose proof (invite_decides l1 (obj s r)) as D.
    destruct (invite (obj s r) l1) as [[e1 n1] r1]. unfold mres in D. cbn [snd] in D. destruct D as [([] & -> & _)|(y & -> & Q)].
    + cbn [mbind invite get_status attendee_id rbind] in E. rewrite app_nil_r in E. injection E as <- <-. reflexivity.
    + destruct (proj2 (Q y) eq_refl) as [X _]. contradiction.
  - cbn [step] in E. destruct a as [i|].
    + destruct st as [w|].
      * destruct F as [(w' & W & N & ->)|[G [[X _]|(j & _ & X & _)]]]; [|discriminate|discriminate]. injection W as <-.
        unfold on_event, set_status in E. change statuses with five_statuses in E. apply not_str_in in N. rewrite N in E. injection E as <- <-. rewrite same_heap. auto.
      * destruct F as [(w' & W & _)|[_ [[X _]|(j & J & _ & -> & S & R)]]]; [discriminate|discriminate|]. injection J as <-.
        assert (D : dicts_ok (obj s r)) by now apply (reachable_dicts_ok cf s). destruct D as [D1 D2].
        unfold get_status in S. cbn [attendee_id rbind] in S. unfold get_role in R. cbn [attendee_id rbind] in R. injection R as R.
        destruct (dget (e_state (obj s r)) i) as [w|] eqn:SW; [|now destruct S].
        assert (M : set_status (obj s r) (Some i) None = (with_state (obj s r) (drem (e_state (obj s r)) i), [], Raise KeyError)).
        { unfold set_status. cbn [get_status attendee_id rbind]. rewrite SW. cbn [opt_str_eqb]. unfold set_status_raw, ddel. cbn [attendee_id]. rewrite SW.
          cbn [e_role with_state]. rewrite R. reflexivity. }
        pose proof (on_event_at s r (fun e => set_status e (Some i) None)) as O. pose proof (on_event_keeps s r (fun e => set_status e (Some i) None)) as K.
        rewrite E in O, K. unfold sst in O, K. cbn [fst] in O, K. rewrite M in O. unfold mev in O. cbn [fst] in O. destruct K as (K1 & K2 & K3).
        unfold on_event in E. rewrite M in E. injection E as _ <-.
        split; [reflexivity|]. split; [exact K1|]. split; [exact K2|]. split; [exact K3|].
        assert (OR : obj s' r = with_state (obj s r) (drem (e_state (obj s r)) i)) by (rewrite (O r EX), Nat.eqb_refl; reflexivity).
        split; [intros k NK; rewrite (O k EX); apply Nat.eqb_neq in NK; now rewrite NK|]. rewrite OR. split; [reflexivity|].
        unfold get_status. cbn [attendee_id rbind e_state with_state]. split; [rewrite dget_drem, String.eqb_refl; auto|].
        intros j NJ. rewrite dget_drem by exact D1. apply String.eqb_neq in NJ. rewrite NJ. reflexivity.
    + assert (M : exists y, set_status (obj s r) None st = (obj s r, [], Raise y)).
      { unfold set_status. destruct (match st with None => true | Some s => str_in s statuses end); eexists; reflexivity. }
      destruct M as (y & M). unfold on_event in E. rewrite M in E. injection E as <- <- _. rewrite same_heap. auto.
  - cbn [step] in E. unfold on_event, set_role in E. destruct (str_in role roles); [destruct a as [i|]; cbn [attendee_id] in E; [discriminate|]|];
      injection E as <- <- _; rewrite same_heap; auto.
  - cbn [step] in E. pose proof (on_event_at s r (set_on_object sp)) as O. pose proof (on_event_keeps s r (set_on_object sp)) as K.
    pose proof (set_on_object_notes sp (obj s r)) as N. pose proof (set_on_object_attrs sp (obj s r)) as A. cbv zeta in A.
    change (fun e => set_on_object sp e) with (set_on_object sp) in E.
    assert (NN : n = []) by (unfold on_event in E; unfold mnotes in N; destruct (set_on_object sp (obj s r)) as [[e1 n1] r1]; cbn in N; injection E as _ <- _; exact N).
    rewrite E in O, K. unfold sst in O, K. cbn [fst] in O, K. destruct K as (K1 & K2 & K3).
    split; [exact NN|]. split; [exact K1|]. split; [exact K2|]. split; [exact K3|].
    split; [intros k NK; rewrite (O k EX); apply Nat.eqb_neq in NK; now rewrite NK|]. cbv zeta. rewrite (O r EX), Nat.eqb_refl. exact A.
  - destruct F as [-> ->]. cbn [step] in E. injection E as <- <-. auto.
  - cbn [step] in E. unfold remove_attendee, ddel in E. destruct a as [i|]; cbn [attendee_id rbind] in E.
    + destruct (dget (cal s c) i); [discriminate|]. injection E as <- <- _. auto.
    + injection E as <- <- _. auto.
Qed.
Print Assumptions C151_left.

(** one call of each kind that raises: Bob's entry asks somebody to leave who is
    not there; the event was deleted already; a status and a role nobody knows;
    somebody unknown is invited after Zoe; Zoe, who has a status and no role,
    leaves; Bob is not in the calendar *)
Example C151_case : let s := run cf0 (office ++ [ODelete 2; OSetStatus 0 (Some "zoe"%string) (Some "ACCEPTED"%string)]) in
  map (fun o => srs (step cf0 s o))
    [OCreate None (p_spec (p_at 732500 9) None false ann [(ann, "CHAIR", Some "X"); (bob, "CHAIR", None); (None, "BOSS", None)]%string) 7;
     ODelete 2; OSetStatus 0 None (Some "MAYBE"%string); OSetStatus 0 None None; OSetRole 0 None "BOSS"; OSetRole 0 None "CHAIR";
     OInvite 0 [bob; None; Some "max"%string]; OSetStatus 0 (Some "zoe"%string) None; OSetStatus 0 bob None;
     OSpecify 0 (p_spec (p_at 732500 9) None false ann [(bob, "CHAIR", Some "X"); (bob, "CHAIR", None); (bob, "CHAIR", None)]%string);
     OAddAttendee 0 None; ORemoveAttendee 0 bob; ORemoveAttendee 0 ann]
  = [Raise KeyError; Raise KeyError; Raise AssertionError; Raise AttributeError; Raise AssertionError; Raise AttributeError;
     Raise AttributeError; Raise KeyError; Ok tt; Raise KeyError; Raise AttributeError; Raise KeyError; Ok tt]
  /\ get_status (obj (sst (step cf0 s (OInvite 0 [bob; None; Some "max"%string]))) 0) bob = Ok (Some "NEEDS-ACTION"%string)
  /\ get_status (obj (sst (step cf0 s (OSetStatus 0 (Some "zoe"%string) None))) 0) (Some "zoe"%string) = Ok None.
Proof. vm_compute. auto. Qed.
