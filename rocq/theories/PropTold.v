(** What subscribers that act while they are being notified get to hear. *)
From Coq Require Import Permutation.
From Verif Require Import Base PyDate Recurrent CalTime Event Storage ICal System Deliver
  QueryProofs EventProofs SpecProofs SystemProofs StoreProofs ImportContent DeliverProofs PropEvent PropSystem PropDeliver.

(** * A subscriber that writes down what it hears *)
(** what it hears: the state at that moment, the object and the notification *)
Definition hearing := (system * nat * notification)%type.
(** it writes into the first part of the memory *)
Definition scribe {M} : watcher (list hearing * M) := fun k s r x => fine (fst k ++ [(s, r, x)], snd k).
(** the others do not know of that part *)
Fixpoint beside {M} (l : list hearing) (p : program M) : program (list hearing * M) :=
  match p with
  | Return k r => Return (l, k) r
  | Call k o next => Call (l, k) o (fun k s r => beside (fst k) (next (snd k) s r))
  end.
Definition aside {M} (w : watcher M) : watcher (list hearing * M) := fun k s r x => beside (fst k) (w (snd k) s r x).

(** what goes too deep is not caught *)
Fixpoint gives_up {M} (p : program M) : Prop :=
  match p with
  | Return _ _ => True
  | Call _ _ next => (forall k s, exists k', next k s OutOfFuel = Return k' OutOfFuel) /\ forall k s r, gives_up (next k s r)
  end.
Definition all_give_up {M} (subs : list (watcher M)) : Prop := forall w k s r x, In w subs -> gives_up (w k s r x).
(** raises nothing itself *)
Fixpoint careful {M} (p : program M) : Prop :=
  match p with
  | Return _ r => forall x, r <> Raise x
  | Call _ _ next => forall k s r, careful (next k s r)
  end.

(** * It does not disturb *)
Definition same {M A} (m' : tmut (list hearing * M) A) (m : tmut M A) : Prop := snd m' = snd m /\ snd (fst m') = fst m.

Lemma same_unheard {M A} (k : list hearing * M) (m : smut A) : same (unheard k m) (unheard (snd k) m).
Proof. now split. Qed.

Lemma tbind_same {M A B} (m' : tmut (list hearing * M) A) (m : tmut M A) f' (f : M -> system -> A -> tmut M B) :
  same m' m -> (forall k s a, same (f' k s a) (f (snd k) s a)) -> same (tbind m' f') (tbind m f).
Proof.
  intros [H1 H2] F. destruct m' as [k' [[s' n'] r']], m as [k [[s n] r]]. cbn [fst snd] in *. injection H1 as -> -> ->. subst k.
  cbn [tbind]. destruct r as [a|x|]; [|now split..]. destruct (F k' s a) as [F1 F2].
  destruct (f' k' s a) as [k1' [[s1' n1'] r1']], (f (snd k') s a) as [k1 [[s1 n1] r1]]. cbn [fst snd] in *.
  injection F1 as -> -> ->. now split.
Qed.

Definition agree {M} (t' : teller (list hearing * M)) (t : teller M) : Prop := forall k s r x, same (t' k s r x) (t (snd k) s r x).

Lemma announce_same {M} t' (t : teller M) k s r x : agree t' t -> same (announce t' k s r x) (announce t (snd k) s r x).
Proof. intros T. apply tbind_same; [apply same_unheard|]. intros k0 s0 a. apply T. Qed.

Lemma status_same {M} t' (t : teller M) k s r a st : agree t' t -> same (set_status_on t' k s r a st) (set_status_on t (snd k) s r a st).
Proof.
  intros T. unfold set_status_on. destruct (match st with None => true | Some x => str_in x statuses end); [|apply same_unheard].
  apply tbind_same; [apply same_unheard|]. intros k0 s0 old. destruct (opt_str_eqb old st); [apply same_unheard|].
  apply tbind_same; [apply same_unheard|]. intros k1 s1 u. destruct a as [i|]; [now apply announce_same|apply same_unheard].
Qed.

Lemma invite_same {M} t' (t : teller M) r l : agree t' t -> forall k s, same (invite_on t' k s r l) (invite_on t (snd k) s r l).
Proof.
  intros T. induction l as [|a l IH]; intros k s; cbn [invite_on]; [apply same_unheard|].
  apply tbind_same; [apply same_unheard|]. intros k0 s0 [st|]; [apply IH|].
  apply tbind_same; [|intros; apply IH]. apply tbind_same; [now apply status_same|]. intros. apply same_unheard.
Qed.

Lemma create_same {M} t' (t : teller M) cf k s uid sp now : agree t' t ->
  same (create_on t' cf k s uid sp now) (create_on t cf (snd k) s uid sp now).
Proof.
  intros T. apply tbind_same; [apply same_unheard|]. intros k0 s0 r. apply tbind_same; [apply T|]. intros. apply same_unheard.
Qed.

Lemma delete_same {M} t' (t : teller M) k s r : agree t' t -> same (delete_on t' k s r) (delete_on t (snd k) s r).
Proof. intros T. apply tbind_same; [apply same_unheard|]. intros k0 s0 u. apply T. Qed.

Lemma import_same {M} t' (t : teller M) cf k s c parsed p cr sync : agree t' t ->
  same (import_on t' cf k s c parsed p cr sync) (import_on t cf (snd k) s c parsed p cr sync).
Proof.
  intros T. apply tbind_same; [apply same_unheard|]. intros k0 s0 evs. cbv zeta.
  apply tbind_same; [apply same_unheard|]. intros k1 s1 [vs|]; [|apply same_unheard].
  set (known := nodup string_dec (map e_uid evs)). clearbody known.
  assert (L : forall l k s, same (import_loop_on t' cf k s c known l) (import_loop_on t cf (snd k) s c known l)).
  { induction l as [|v l IH]; intros k2 s2; cbn [import_loop_on]; [apply same_unheard|].
    apply tbind_same.
    - unfold import_one_on. destruct (v_uid v) as [u|]; [|apply same_unheard]. destruct (str_in u known).
      + apply tbind_same; [|intros; apply same_unheard]. unfold import_existing_on.
        apply tbind_same; [apply same_unheard|]. intros k3 s3 r. apply tbind_same; [apply same_unheard|]. intros k4 s4 sp.
        apply tbind_same; [apply same_unheard|]. intros k5 s5 [|]; [|apply same_unheard].
        apply tbind_same; [apply same_unheard|]. intros k6 s6 u0. now apply announce_same.
      + destruct (has_event s2 u); [apply same_unheard|]. apply tbind_same; [|intros; apply same_unheard]. unfold import_new_on.
        apply tbind_same; [apply same_unheard|]. intros k3 s3 sp. apply tbind_same; [now apply create_same|]. intros. apply same_unheard.
    - intros k3 s3 u. apply tbind_same; [apply IH|]. intros. apply same_unheard. }
  apply tbind_same; [apply L|]. intros k2 s2 ical. destruct sync; [|apply same_unheard].
  generalize (filter (fun u => negb (str_in u ical)) known). intros uids. revert k2 s2.
  induction uids as [|u uids IH]; intros k2 s2; cbn [delete_loop_on]; [apply same_unheard|].
  apply tbind_same; [apply same_unheard|]. intros k3 s3 r. apply tbind_same; [now apply delete_same|]. intros. apply IH.
Qed.

Lemma step_same {M} t' (t : teller M) cf k s o : agree t' t -> same (step_on t' cf k s o) (step_on t cf (snd k) s o).
Proof.
  intros T. destruct o; cbn [step_on]; try apply same_unheard.
  - apply tbind_same; [now apply create_same|]. intros. apply same_unheard.
  - apply tbind_same; [now apply create_same|]. intros. apply same_unheard.
  - now apply delete_same.
  - now apply invite_same.
  - now apply status_same.
  - now apply import_same.
Qed.

Lemma carry_same {M} t' (t : teller M) cf (p : program M) : agree t' t ->
  forall l s, same (carry_out (step_on t' cf) s (beside l p)) (carry_out (step_on t cf) s p).
Proof.
  intros T. induction p as [k r|k o next IH]; intros l s; cbn [beside carry_out]; [now split|].
  destruct (step_same t' t cf (l, k) s o T) as [H1 H2]. cbn [snd] in H1, H2.
  destruct (step_on t' cf (l, k) s o) as [k1' [[s1' n1'] r1']], (step_on t cf k s o) as [k1 [[s1 n1] r1]]. cbn [fst snd] in *.
  injection H1 as -> -> ->. subst k1. destruct (IH (snd k1') s1 r1 (fst k1') s1) as [I1 I2].
  destruct (carry_out (step_on t' cf) s1 (beside (fst k1') (next (snd k1') s1 r1))) as [k2' [[s2' n2'] r2']],
    (carry_out (step_on t cf) s1 (next (snd k1') s1 r1)) as [k2 [[s2 n2] r2]]. cbn [fst snd] in *. injection I1 as -> -> ->. now split.
Qed.

Lemma deliver_same {M} cf (pre post : list (watcher M)) depth :
  agree (deliver depth cf (map aside pre ++ scribe :: map aside post)) (deliver depth cf (pre ++ post)).
Proof.
  induction depth as [|d IH]; intros k s r x; cbn [deliver]; [now split|].
  set (t' := deliver d cf (map aside pre ++ scribe :: map aside post)) in *. set (t := deliver d cf (pre ++ post)) in *. clearbody t' t.
  assert (POST : forall l k s, same (each_on (step_on t' cf) (map aside l) k s r x) (each_on (step_on t cf) l (snd k) s r x)).
  { induction l as [|w l IHl]; intros k0 s0; cbn [map each_on]; [apply same_unheard|].
    apply tbind_same; [now apply carry_same|]. intros. apply IHl. }
  revert k s. induction pre as [|w pre IHp]; intros k s.
  - cbn [map app each_on scribe fine carry_out tbind]. destruct (POST post (fst k ++ [(s, r, x)], snd k) s) as [H1 H2].
    destruct (each_on (step_on t' cf) (map aside post) (fst k ++ [(s, r, x)], snd k) s r x) as [k1 [[s1 n1] r1]]. exact (conj H1 H2).
  - cbn [map app each_on]. apply tbind_same; [now apply carry_same|]. intros. apply IHp.
Qed.

(** * What it hears *)
Definition what (e : hearing) : notification := snd e.

(** while [inv] goes on to hold, [rel] relates what is written down to what is
    announced, unless it goes too deep *)
Definition heard {M} (inv : system -> Prop) (rel : list hearing -> list notification -> Prop)
  : list hearing * M -> system -> list notification -> list hearing * M -> system -> bool -> Prop :=
  fun k s n k' s' b => inv s -> inv s' /\ (b = false -> exists l, fst k' = fst k ++ l /\ rel l n).
(** nothing is nothing, and one after the other *)
Definition adds_up (rel : list hearing -> list notification -> Prop) : Prop :=
  rel [] [] /\ forall l1 n1 l2 n2, rel l1 n1 -> rel l2 n2 -> rel (l1 ++ l2) (n1 ++ n2).

Lemma heard_refl {M} inv rel : adds_up rel -> R_refl (@heard M inv rel).
Proof. intros [A _] k s b H. split; [exact H|]. intros _. exists []. now rewrite app_nil_r. Qed.

Lemma heard_trans {M} inv rel : adds_up rel -> R_trans (@heard M inv rel).
Proof.
  intros [_ A] k s n1 k1 s1 n2 k2 s2 b H1 H2 H. destruct (H1 H) as [I1 X]. destruct (H2 I1) as [I2 Y]. split; [exact I2|].
  intros B. destruct (X eq_refl) as (l1 & E1 & R1). destruct (Y B) as (l2 & E2 & R2).
  exists (l1 ++ l2). rewrite E2, E1, app_assoc. auto.
Qed.

(** the delivery of [x] about [r] writes down [x], after what is heard before *)
Definition written {M} (first : Prop) (inv : system -> Prop) (rel : list hearing -> list notification -> Prop)
           (k : list hearing * M) (s : system) (r : nat) (x : notification) (m : tmut (list hearing * M) unit) : Prop :=
  inv s -> inv (sst (snd m)) /\ (fuel_out (srs (snd m)) = false ->
    exists l1 s1 l2 n1 n2, fst (fst m) = fst k ++ l1 ++ (s1, r, x) :: l2
      /\ snt (snd m) = n1 ++ n2 /\ rel l1 n1 /\ rel l2 n2 /\ (first -> l1 = [] /\ n1 = [] /\ s1 = s)).
Definition writes {M} (first : Prop) inv rel (t : teller (list hearing * M)) : Prop :=
  forall k s r x, written first inv rel k s r x (t k s r x).

Lemma carry_heard {M} inv rel (Q : op -> Prop) act (p : program M) : adds_up rel -> (forall k s o, Q o -> leads (heard inv rel) k s (act k s o)) ->
  gives_up p -> calls_within Q p ->
  forall k s, leads (heard inv rel) k s (carry_out act s (beside (fst k) p)).
Proof.
  intros A H. induction p as [k0 r0|k0 o next IH]; intros G W k s; cbn [beside carry_out].
  - intros J. split; [exact J|]. intros _. exists []. split; [symmetry; apply app_nil_r|apply (proj1 A)].
  - destruct G as [G1 G2], W as [W1 W2]. pose proof (H (fst k, k0) s o W1) as X. destruct (act (fst k, k0) s o) as [k1 [[s1 n1] r1]].
    specialize (IH (snd k1) s1 r1 (G2 _ _ _) (W2 _ _ _) k1 s1).
    destruct r1 as [u|e|].
    + destruct (carry_out act s1 (beside (fst k1) (next (snd k1) s1 (Ok u)))) as [k2 [[s2 n2] r2]].
      exact (heard_trans inv rel A (fst k, k0) s n1 k1 s1 n2 k2 s2 _ X IH).
    + destruct (carry_out act s1 (beside (fst k1) (next (snd k1) s1 (Raise e)))) as [k2 [[s2 n2] r2]].
      exact (heard_trans inv rel A (fst k, k0) s n1 k1 s1 n2 k2 s2 _ X IH).
    + destruct (G1 (snd k1) s1) as [k' ->]. cbn [beside carry_out]. intros J. split; [apply (X J)|]. intros B. discriminate B.
Qed.

(** one that raises nothing itself comes to an end, or goes too deep *)
Lemma carry_careful {M} act (p : program M) : careful p -> forall l s x, srs (snd (carry_out act s (beside l p))) <> Raise x.
Proof.
  induction p as [k0 r0|k0 o next IH]; intros C l s x; cbn [beside carry_out]; [apply C|].
  destruct (act (l, k0) s o) as [k1 [[s1 n1] r1]]. specialize (IH (snd k1) s1 r1 (C _ _ _) (fst k1) s1 x).
  now destruct (carry_out act s1 (beside (fst k1) (next (snd k1) s1 r1))) as [k2 [[s2 n2] r2]].
Qed.

Lemma each_heard {M} inv rel (Q : op -> Prop) act (subs : list (watcher M)) r x : adds_up rel -> (forall k s o, Q o -> leads (heard inv rel) k s (act k s o)) ->
  all_give_up subs -> within Q subs -> forall k s, leads (heard inv rel) k s (each_on act (map aside subs) k s r x).
Proof.
  intros A H G W. induction subs as [|w subs IH]; intros k s; cbn [map each_on]; [now apply nothing, heard_refl|].
  apply tbind_leads; [now apply heard_trans|apply (carry_heard inv rel Q); auto; [apply G|apply W]; now left|].
  intros u _. apply IH; intros w0 k0 s0 r0 x0 I0; [apply G|apply W]; now right.
Qed.

Lemma each_writes {M} inv rel (Q : op -> Prop) act (pre post : list (watcher M)) r x : adds_up rel ->
  (forall k s o, Q o -> leads (heard inv rel) k s (act k s o)) -> all_give_up (pre ++ post) -> within Q (pre ++ post) -> (forall w k s r x, In w pre -> careful (w k s r x)) ->
  forall k s, written (pre = []) inv rel k s r x (each_on act (map aside pre ++ scribe :: map aside post) k s r x).
Proof.
  intros A H. induction pre as [|w pre IH]; intros G W C k s; unfold written.
  - cbn [map app each_on scribe fine carry_out tbind]. pose proof (each_heard inv rel Q act post r x A H G W (fst k ++ [(s, r, x)], snd k) s) as X.
    destruct (each_on act (map aside post) (fst k ++ [(s, r, x)], snd k) s r x) as [k1 [[s1 n1] r1]]. unfold leads, heard, snt, srs, sst in *.
    cbn [fst snd app] in *. intros J. destruct (X J) as [J1 Y]. split; [exact J1|].
    intros B. destruct (Y B) as (l2 & -> & R). exists [], s, l2, [], n1. cbn [app]. rewrite <- app_assoc. cbn [app].
    repeat split; try assumption. apply (proj1 A).
  - cbn [map app each_on].
    assert (G1 : gives_up (w (snd k) s r x)) by (apply G; now left).
    assert (C1 : careful (w (snd k) s r x)) by (apply C; now left).
    assert (W1 : calls_within Q (w (snd k) s r x)) by (apply W; now left).
    pose proof (carry_heard inv rel Q act (w (snd k) s r x) A H G1 W1 k s) as X.
    pose proof (carry_careful act (w (snd k) s r x) C1 (fst k) s) as Y. change (beside (fst k) (w (snd k) s r x)) with (aside w k s r x) in *.
    destruct (carry_out act s (aside w k s r x)) as [k1 [[s1 n1] r1]]. unfold srs in Y. cbn [snd] in Y. unfold leads, heard, snt, srs, sst in X.
    cbn [fst snd] in X. intros J. destruct (X J) as [J1 X1].
    destruct r1 as [u|e|]; [|now elim (Y e)|split; [exact J1|cbn; discriminate]]. cbn [tbind].
    pose proof (IH ltac:(intros w0 k0 s0 r0 x0 I0; apply G; now right) ltac:(intros w0 k0 s0 r0 x0 I0; apply W; now right)
      ltac:(intros w0 k0 s0 r0 x0 I0; apply C; now right) k1 s1 J1) as [J2 Z].
    destruct (each_on act (map aside pre ++ scribe :: map aside post) k1 s1 r x) as [k2 [[s2 n2] r2]]. unfold snt, srs, sst in *. cbn [fst snd] in *.
    split; [exact J2|]. intros B. destruct (X1 eq_refl) as (l & E & R). destruct (Z B) as (l1 & s' & l2 & m1 & m2 & E1 & -> & R1 & R2 & _).
    exists (l ++ l1), s', l2, (n1 ++ m1), m2. rewrite E1, E, !app_assoc. repeat split; auto; try discriminate. now apply (proj2 A).
Qed.

Lemma deliver_writes {M} inv rel (Q : op -> Prop) cf (pre post : list (watcher M)) depth : adds_up rel ->
  (forall t : teller (list hearing * M), writes (pre = []) inv rel t -> forall k s o, Q o -> leads (heard inv rel) k s (step_on t cf k s o)) ->
  all_give_up (pre ++ post) -> within Q (pre ++ post) -> (forall w k s r x, In w pre -> careful (w k s r x)) ->
  writes (pre = []) inv rel (deliver depth cf (map aside pre ++ scribe :: map aside post)).
Proof.
  intros A H G W C. induction depth as [|d IH]; intros k s r x; cbn [deliver]; [intros J; split; [exact J|discriminate]|].
  exact (each_writes inv rel Q _ pre post r x A (H _ IH) G W C k s).
Qed.

(** ** Anywhere among the subscribers *)
Definition some_order (l : list hearing) (n : list notification) : Prop := Permutation (map what l) n.

Lemma some_order_adds : adds_up some_order.
Proof. split; [constructor|]. unfold some_order. intros l1 n1 l2 n2 H1 H2. rewrite map_app. now apply Permutation_app. Qed.

Lemma some_order_step {M} cf first (t : teller (list hearing * M)) : writes first (fun _ => True) some_order t ->
  forall k s o, leads (heard (fun _ => True) some_order) k s (step_on t cf k s o).
Proof.
  intros T k s o.
  assert (X : forall (k : list hearing * M) s0 s r x, let m := t k s r x in
    heard (fun _ => True) some_order k s0 (x :: snt (snd m)) (fst m) (sst (snd m)) (fuel_out (srs (snd m)))).
  { intros k0 s' s0 r x m _. split; [exact I|]. intros B. destruct (T k0 s0 r x I) as [_ Y].
    destruct (Y B) as (l1 & s1 & l2 & n1 & n2 & E & N & R1 & R2 & _).
    exists (l1 ++ (s1, r, x) :: l2). split; [exact E|]. fold m in N. rewrite N. unfold some_order in *. rewrite map_app. cbn [map].
    apply Permutation_sym, Permutation_cons_app, Permutation_sym, Permutation_app; assumption. }
  apply (step_leads cf (fun _ _ => True) (fun _ => True)); auto.
  - apply heard_refl, some_order_adds.
  - apply heard_trans, some_order_adds.
  - intros k0 s0 o0 _ _ _. split; [exact I|]. intros _. exists []. split; [now rewrite app_nil_r|constructor].
  - intros k0 s0 o0 s1 x _ _ _. apply X.
  - intros k0 s0 r sp s1 v u _ _ _ _ _ _. apply X.
Qed.

(** ** Before all others *)
(** what a notification says holds, if components of texts to import are in [X] *)
Definition holds (cf : config) (X : vevent -> Prop) (e : hearing) : Prop :=
  let '(s, r, x) := e in
  match x with
  | NCreated u => get_event s u = Ok r /\ e_uid (obj s r) = u
  | NDeleted u => has_event s u = false /\ e_uid (obj s r) = u
  | NModified u => get_event s u = Ok r /\ e_uid (obj s r) = u /\ exists v, X v /\ v_uid v = Some u /\ updated (cf_tz cf) v (obj s r)
  | NParticipation u i old new =>
      e_uid (obj s r) = u /\ old <> new /\ ((r < List.length (sys_heap s))%nat -> get_status (obj s r) (Some i) = Ok new)
  end.
Definition in_order cf X (l : list hearing) (n : list notification) : Prop := map what l = n /\ Forall (holds cf X) l.

Lemma in_order_adds cf X : adds_up (in_order cf X).
Proof.
  split; [split; [reflexivity|constructor]|]. intros l1 n1 l2 n2 [H1 F1] [H2 F2]. split; [now rewrite map_app, H1, H2|]. now apply Forall_app.
Qed.

Lemma reachable_step cf s o : reachable cf s -> reachable cf (sst (step cf s o)).
Proof.
  intros [h H]. destruct (step cf s o) as [[s1 n1] r1] eqn:E. eexists. exact (history_step cf s h o s1 n1 r1 H E).
Qed.

Lemma primitive_holds cf X s o s1 x : reachable cf s -> primitive o -> step cf s o = (s1, [x], Ok tt) -> holds cf X (s1, subject s o, x).
Proof.
  intros RE. assert (C : forall uid sp now, drop (create_event cf s uid sp now) = (s1, [x], Ok tt) -> holds cf X (s1, List.length (sys_heap s), x)).
  { intros uid sp now E. destruct (create_spec cf s uid sp now) as [(r & e & EQ & -> & _ & U)|(_ & N & _)].
    - rewrite EQ in E. cbn in E. set (u := match uid with Some u => u | None => _ end) in *. clearbody u. injection E as <- <-. cbn [holds].
      split; [unfold get_event; cbn [sys_store]; rewrite dget_dset, String.eqb_refl; reflexivity|].
      rewrite (nth_middle (sys_heap s) [] e (blank "") : obj (mkSys (sys_heap s ++ [e]) _ _ _) _ = e). exact U.
    - unfold snt in N. destruct (create_event cf s uid sp now) as [[s0 n0] [r0|y|]]; cbn in N, E; congruence. }
  destruct o; cbn [primitive step subject]; try contradiction; intros _ E.
  - exact (C _ _ _ E).
  - exact (C _ _ _ E).
  - unfold delete_event, ddel in E. destruct (dget (sys_store s) (e_uid (obj s r))); [|discriminate E].
    injection E as <- <-. cbn [holds]. split; [|reflexivity]. unfold has_event, get_event.
    pose proof (dget_drem (sys_store s) (e_uid (obj s r)) (e_uid (obj s r)) (proj1 (reachable_store cf s RE))) as DX.
    rewrite String.eqb_refl in DX. unfold with_store. cbn [sys_store]. rewrite DX. reflexivity.
  - unfold on_event in E. destruct (set_status (obj s r) a st) as [[e' n'] r'] eqn:SS. injection E as <- -> ->.
    assert (U : e_uid e' = e_uid (obj s r)) by (pose proof (set_status_attrs (obj s r) a st) as (UX & _); rewrite SS in UX; exact UX).
    destruct a as [i|].
    + destruct (C37_status_and_notification (obj s r) i st e' [x] (reachable_dicts_ok cf s r RE) SS) as (G & N1 & N2).
      destruct (opt_str_eqb (dget (e_state (obj s r)) i) st) eqn:Q.
      * apply opt_str_eqb_eq in Q. destruct (N1 Q) as [_ N]. discriminate N.
      * assert (NE : dget (e_state (obj s r)) i <> st) by (intros QX; apply opt_str_eqb_eq in QX; congruence).
        specialize (N2 NE). injection N2 as ->. cbn [holds]. rewrite obj_heap, replace_nth_get, Nat.eqb_refl. cbn [sys_heap with_heap].
        rewrite replace_nth_length. destruct (Nat.ltb_spec r (List.length (sys_heap s))) as [L|L]; cbn [andb].
        -- split; [exact U|]. split; [exact NE|]. intros _. unfold get_status. cbn [attendee_id rbind]. now rewrite G.
        -- split; [reflexivity|]. split; [exact NE|]. intros LX. lia.
    + unfold set_status in SS. destruct (match st with None => true | Some x => str_in x statuses end); discriminate SS.
Qed.

Lemma modified_holds cf (X : vevent -> Prop) s r sp s1 v u : reachable cf s -> X v -> v_uid v = Some u -> get_event s u = Ok r ->
  (exists known main, import_spec (cf_tz cf) known main v = Ok sp) ->
  step cf s (OSpecify r sp) = (s1, [], Ok tt) -> holds cf X (s1, r, NModified (e_uid (obj s1 r))).
Proof.
  intros RE HX U GE (known & main & SP) E. pose proof (reachable_store cf s RE) as [_ SI]. unfold get_event in GE.
  destruct (dget (sys_store s) u) as [r'|] eqn:D; [|discriminate GE]. injection GE as ->. destruct (SI u r D) as (L & EU & _).
  cbn [step] in E. unfold on_event in E. pose proof (set_on_object_updated (cf_tz cf) known main v sp (obj s r) SP) as [UP _].
  pose proof (set_on_object_uid sp (obj s r)) as US.
  destruct (set_on_object sp (obj s r)) as [[e n] x]. injection E as <- _ _. unfold mev in UP, US. cbn [fst] in UP, US.
  assert (O : obj (with_heap s (replace_nth r (sys_heap s) e)) r = e).
  { rewrite obj_heap, replace_nth_get, Nat.eqb_refl. apply Nat.ltb_lt in L. now rewrite L. }
  unfold holds. rewrite O, US, EU. split; [unfold get_event, with_heap; cbn [sys_store]; now rewrite D|]. split; [reflexivity|].
  exists v. auto.
Qed.

(** only texts with components in [X] *)
Definition imports_only (X : vevent -> Prop) (o : op) : Prop := forall v, in_text o v -> X v.

Lemma in_order_step {M} cf (X : vevent -> Prop) (first : Prop) (t : teller (list hearing * M)) : first ->
  writes first (reachable cf) (in_order cf X) t ->
  forall k s o, imports_only X o -> leads (heard (reachable cf) (in_order cf X)) k s (step_on t cf k s o).
Proof.
  intros FIRST T k s o IX.
  assert (Y : forall (k : list hearing * M) s0 s r x, (reachable cf s0 -> reachable cf s /\ holds cf X (s, r, x)) -> let m := t k s r x in
    heard (reachable cf) (in_order cf X) k s0 (x :: snt (snd m)) (fst m) (sst (snd m)) (fuel_out (srs (snd m)))).
  { intros k0 s' s0 r x HO m R0. destruct (HO R0) as [R1 HX]. destruct (T k0 s0 r x R1) as [R2 Y]. split; [exact R2|]. intros B.
    destruct (Y B) as (l1 & s1 & l2 & n1 & n2 & E & N & _ & [M2 F2] & FI). destruct (FI FIRST) as (-> & -> & ->).
    exists ((s0, r, x) :: l2). split; [exact E|]. fold m in N. rewrite N. split; [cbn; now rewrite M2|]. now constructor. }
  apply (step_leads cf (fun _ _ => True) X); auto.
  - apply heard_refl, in_order_adds.
  - apply heard_trans, in_order_adds.
  - intros k0 s0 o0 _ _ R0. split; [now apply reachable_step|]. intros _. exists []. split; [now rewrite app_nil_r|split; [reflexivity|constructor]].
  - intros k0 s0 o0 s1 x _ PR E. apply Y. intros R0. split; [|now apply (primitive_holds cf)].
    pose proof (reachable_step cf s0 o0 R0) as Q. now rewrite E in Q.
  - intros k0 s0 r sp s1 v u _ HX U GE SP E. apply Y. intros R0. split; [|now apply (modified_holds cf X s0 r sp s1 v u)].
    pose proof (reachable_step cf s0 (OSpecify r sp) R0) as Q. now rewrite E in Q.
Qed.

Lemma first_in_order M depth cf X (subs : list (watcher M)) l k s o l' k' s' n r : all_give_up subs -> reachable cf s ->
  within (imports_only X) subs -> imports_only X o ->
  step_told depth cf (scribe :: map aside subs) (l, k) s o = ((l', k'), (s', n, r)) -> r <> OutOfFuel ->
  exists new, l' = l ++ new /\ in_order cf X new n.
Proof.
  intros G RE WX OX E N. set (pre := [] : list (watcher M)).
  assert (W : writes (pre = []) (reachable cf) (in_order cf X) (deliver depth cf (map aside pre ++ scribe :: map aside subs))).
  { apply (deliver_writes _ _ (imports_only X)); [apply in_order_adds| |exact G|exact WX|intros ? ? ? ? ? []]. intros t. now apply in_order_step. }
  pose proof (in_order_step cf X (pre = []) _ eq_refl W (l, k) s o OX RE) as [_ Y]. cbn [pre map app] in Y. unfold step_told in E. rewrite E in Y.
  apply Y. destruct r; [reflexivity..|now elim N].
Qed.

(** * C122: what a subscriber that only listens gets to hear *)
(** The first one hears everything that is announced, in that order, whatever
    the others do, unless they go too deep. *)
Theorem C122_first M depth cf (subs : list (watcher M)) l k s o l' k' s' n r : all_give_up subs -> reachable cf s ->
  step_told depth cf (scribe :: map aside subs) (l, k) s o = ((l', k'), (s', n, r)) -> r <> OutOfFuel ->
  exists new, l' = l ++ new /\ map what new = n.
Proof.
  intros G RE E N. 
  destruct (first_in_order M depth cf (fun _ => True) subs l k s o l' k' s' n r G RE) as (new & E1 & E2 & _); auto; [|intros ? ?; exact I|now exists new].
  intros w k0 s0 r0 x0 _. induction (w k0 s0 r0 x0); cbn; auto. split; [intros ? ?; exact I|auto].
Qed.
Lemma accept_gives_up {M} (k : M) s r x : gives_up (accept k s r x).
Proof. destruct x; cbn; try exact I. split; [intros k0 s0; now exists k0|intros; exact I]. Qed.
Lemma inviter_gives_up {M} l (k : M) s r x : gives_up (inviter l k s r x).
Proof. destruct x; cbn; try exact I. split; [intros k0 s0; now exists k0|intros; exact I]. Qed.
Example C122_first_ex : let subs := [inviter [bob]; accept] : list (watcher unit) in
  let m := step_told 3 cf0 (scribe :: map aside subs) ([], tt) (run cf0 office) a_plan in
  all_give_up subs /\ reachable cf0 (run cf0 office) /\ srs (snd m) = Ok tt
  /\ map what (fst (fst m)) = [NCreated "n1"; NParticipation "n1" "bob" None (Some "NEEDS-ACTION");
                              NParticipation "n1" "bob" (Some "NEEDS-ACTION") (Some "ACCEPTED")]%string.
Proof.
  split; [intros w k s r x [<-|[<-|[]]]; [apply inviter_gives_up|apply accept_gives_up]|].
  split; [apply run_reachable|]. split; vm_compute; reflexivity.
Qed.
Print Assumptions C122_first.

(** Wherever it is among the subscribers, it hears the same notifications, if
    those before it raise nothing; *)
Theorem C122_everything M depth cf (pre post : list (watcher M)) l k s o l' k' s' n r : all_give_up (pre ++ post) ->
  (forall w k s r x, In w pre -> careful (w k s r x)) ->
  step_told depth cf (map aside pre ++ scribe :: map aside post) (l, k) s o = ((l', k'), (s', n, r)) -> r <> OutOfFuel ->
  exists new, l' = l ++ new /\ Permutation (map what new) n.
Proof.
  intros G C E N.
  assert (W : writes (pre = []) (fun _ => True) some_order (deliver depth cf (map aside pre ++ scribe :: map aside post))).
  { apply (deliver_writes _ _ (fun _ => True)); [apply some_order_adds| |exact G|apply within_all|exact C]. intros t T k0 s0 o0 _.
    now apply (some_order_step cf (pre = [])). }
  pose proof (some_order_step cf (pre = []) _ W (l, k) s o I) as [_ X]. unfold step_told in E. rewrite E in X.
  apply X. destruct r; [reflexivity..|now elim N].
Qed.
(** invites, no matter how that comes out *)
Definition kind_inviter {M} (l : list attendee) : watcher M :=
  fun k _ r x => match x with
                 | NCreated _ => Call k (OInvite r l) (fun k _ r => match r with OutOfFuel => Return k OutOfFuel | _ => fine k end)
                 | _ => fine k
                 end.
(** accepts, no matter how that comes out *)
Definition kind_accept {M} : watcher M :=
  fun k _ r x => match x with
                 | NParticipation _ i _ _ => Call k (OSetStatus r (Some i) (Some "ACCEPTED"%string)) (fun k _ r => match r with OutOfFuel => Return k OutOfFuel | _ => fine k end)
                 | _ => fine k
                 end.
Example C122_everything_ex : let pre := [kind_inviter [bob]; kind_accept] : list (watcher unit) in
  let m := step_told 3 cf0 (map aside pre ++ [scribe]) ([], tt) (run cf0 office) a_plan in
  all_give_up (pre ++ []) /\ (forall w k s r x, In w pre -> careful (w k s r x)) /\ srs (snd m) = Ok tt
  /\ snt (snd m) = [NCreated "n1"; NParticipation "n1" "bob" None (Some "NEEDS-ACTION");
                              NParticipation "n1" "bob" (Some "NEEDS-ACTION") (Some "ACCEPTED")]%string
  /\ map what (fst (fst m)) = [NParticipation "n1" "bob" (Some "NEEDS-ACTION") (Some "ACCEPTED");
                              NParticipation "n1" "bob" None (Some "NEEDS-ACTION"); NCreated "n1"]%string.
Proof.
  split.
  { intros w k s r x [<-|[<-|[]]]; destruct x; cbn; try exact I;
      (split; [intros k0 s0; now exists k0|intros ? ? [?|?|]; exact I]). }
  split.
  { intros w k s r x [<-|[<-|[]]]; destruct x; cbn; try discriminate; intros ? ? [?|?|]; cbn; discriminate. }
  split; [vm_compute; reflexivity|]. split; vm_compute; reflexivity.
Qed.
Print Assumptions C122_everything.

(** but if those before it act, not in the order in which things happened: it
    can hear of a change before it hears of the change that was made earlier,
    and the last it hears of somebody's status can be wrong. *)
Theorem C122_later_refuted : exists (pre : list (watcher unit)) s o u i, reachable cf0 s /\ all_give_up (pre ++ [])
  /\ (forall w k s r x, In w pre -> careful (w k s r x))
  /\ let m := step_told 3 cf0 (map aside pre ++ [scribe]) ([], tt) s o in
      srs (snd m) = Ok tt /\ map what (fst (fst m)) <> snt (snd m)
      /\ (exists l, map what (fst (fst m)) = l ++ [NParticipation u i None (Some "NEEDS-ACTION"%string)])
      /\ get_status (obj (sst (snd m)) 0) (Some i) = Ok (Some "ACCEPTED"%string).
Proof.
  exists [kind_accept], (run cf0 office), (OInvite 0 [bob]), "a1"%string, "bob"%string.
  split; [apply run_reachable|]. split; [|split].
  - intros w k s r x [<-|[]]; destruct x; cbn; try exact I. split; [intros k0 s0; now exists k0|intros ? ? [?|?|]; exact I].
  - intros w k s r x [<-|[]]; destruct x; cbn; try discriminate; intros ? ? [?|?|]; cbn; discriminate.
  - split; [vm_compute; reflexivity|]. split; [vm_compute; discriminate|]. split; [|vm_compute; reflexivity].
    exists [NParticipation "a1" "bob" (Some "NEEDS-ACTION") (Some "ACCEPTED")]%string. vm_compute. reflexivity.
Qed.
Print Assumptions C122_later_refuted.

(** And it changes nothing for the others: the call leaves the same state and
    memory, announces the same and ends the same as without it. *)
Theorem C122_unnoticed M depth cf (pre post : list (watcher M)) l k s o :
  let m := step_told depth cf (map aside pre ++ scribe :: map aside post) (l, k) s o in
  step_told depth cf (pre ++ post) k s o = (snd (fst m), snd m).
Proof.
  cbv zeta. unfold step_told. pose proof (step_same _ _ cf (l, k) s o (deliver_same cf pre post depth)) as [H1 H2]. cbn [snd] in H1, H2.
  rewrite H1, H2. now destruct (step_on (deliver depth cf (pre ++ post)) cf k s o).
Qed.
Example C122_unnoticed_ex :
  snd (step_told 3 cf0 ([aside (inviter [bob])] ++ scribe :: [aside accept]) ([], tt) (run cf0 office) a_plan)
  = snd (step_told 3 cf0 [inviter [bob]; accept] tt (run cf0 office) a_plan)
  /\ snt (snd (step_told 3 cf0 [inviter [bob]; accept] tt (run cf0 office) a_plan)) <> [].
Proof. split; [vm_compute; reflexivity|vm_compute; discriminate]. Qed.
Print Assumptions C122_unnoticed.

(** * C123: what the first subscriber hears is so at that moment *)
(** An event announced as created is stored, one announced as deleted is not, an
    attendee has the status that was announced for them, and an event announced as
    modified is stored and is as one of the imported components with its id says. *)
Theorem C123_true M depth cf (X : vevent -> Prop) (subs : list (watcher M)) l k s o l' k' s' n r : all_give_up subs -> reachable cf s ->
  within (imports_only X) subs -> imports_only X o ->
  step_told depth cf (scribe :: map aside subs) (l, k) s o = ((l', k'), (s', n, r)) -> r <> OutOfFuel ->
  exists new, l' = l ++ new /\ forall s1 r1 x, In (s1, r1, x) new ->
    match x with
    | NCreated u => get_event s1 u = Ok r1 /\ e_uid (obj s1 r1) = u
    | NDeleted u => has_event s1 u = false /\ e_uid (obj s1 r1) = u
    | NModified u => get_event s1 u = Ok r1 /\ e_uid (obj s1 r1) = u /\ exists v, X v /\ v_uid v = Some u /\ updated (cf_tz cf) v (obj s1 r1)
    | NParticipation u i old new =>
        e_uid (obj s1 r1) = u /\ old <> new
        /\ ((r1 < List.length (sys_heap s1))%nat -> get_status (obj s1 r1) (Some i) = Ok new)
    end.
Proof.
  intros G RE WX OX E N. destruct (first_in_order M depth cf X subs l k s o l' k' s' n r G RE WX OX E N) as (new & E1 & _ & F). exists new.
  split; [exact E1|]. intros s1 r1 x H. exact (proj1 (Forall_forall _ _) F _ H).
Qed.
Example C123_true_ex : let subs := [inviter [bob]; accept] : list (watcher unit) in
  let m := step_told 3 cf0 (scribe :: map aside subs) ([], tt) (run cf0 office) a_plan in
  all_give_up subs /\ reachable cf0 (run cf0 office) /\ srs (snd m) = Ok tt
  /\ map (fun e => (has_event (fst (fst e)) "n1", get_status (obj (fst (fst e)) (snd (fst e))) bob)) (fst (fst m))
     = [(true, Ok None); (true, Ok (Some "NEEDS-ACTION")); (true, Ok (Some "ACCEPTED"))]%string.
Proof.
  split; [intros w k s r x [<-|[<-|[]]]; [apply inviter_gives_up|apply accept_gives_up]|].
  split; [apply run_reachable|]. split; vm_compute; reflexivity.
Qed.
Print Assumptions C123_true.

(** the first of two components is announced as modified when only it is *)
Example C123_modified_ex : let m := step_told 3 cf0 (scribe :: map aside ([accept] : list (watcher unit))) ([], tt) (run cf0 office)
    (OImport 0 (Ok (Some x_both)) (None, None) None false) in
  within (imports_only (fun v => In v x_both)) ([accept] : list (watcher unit)) /\ srs (snd m) = Ok tt
  /\ map (fun e => (what e, match get_event (fst (fst e)) "a2" with Ok r => Some (e_title (obj (fst (fst e)) r)) | _ => None end)) (fst (fst m))
     = [(NModified "a1", Some "Meeting"); (NModified "a2", Some "Changed")]%string.
Proof.
  split.
  { intros w k s r x [<-|[]]; destruct x; cbn; try exact I. split; [intros v []|intros; exact I]. }
  split; vm_compute; reflexivity.
Qed.

(** Not so for later subscribers: one can be told that an event was created which
    by then is not stored any more. *)
(** deletes what is created *)
Definition spoiler {M} : watcher M :=
  fun k _ r x => match x with NCreated _ => Call k (ODelete r) (fun k _ r => Return k r) | _ => fine k end.
Theorem C123_later_refuted : exists (pre : list (watcher unit)) s o, reachable cf0 s /\ all_give_up (pre ++ [])
  /\ let m := step_told 3 cf0 (map aside pre ++ [scribe]) ([], tt) s o in
      srs (snd m) = Ok tt
      /\ exists s1 r1 u, In (s1, r1, NCreated u) (fst (fst m)) /\ has_event s1 u = false.
Proof.
  exists [spoiler], (run cf0 office), a_plan. split; [apply run_reachable|]. split.
  - intros w k s r x [<-|[]]; destruct x; cbn; try exact I. split; [intros k0 s0; now exists k0|intros; exact I].
  - cbv zeta. split; [vm_compute; reflexivity|].
    destruct (step_told 3 cf0 (map aside [spoiler] ++ [scribe]) ([], tt) (run cf0 office) a_plan) as [[l k] m] eqn:E.
    assert (L : exists s1 s2, l = [(s1, 3%nat, NDeleted "n1"); (s2, 3%nat, NCreated "n1")]%string /\ has_event s2 "n1" = false).
    { vm_compute in E. injection E as <- _ _. do 2 eexists. split; reflexivity. }
    destruct L as (s1 & s2 & -> & H). exists s2, 3%nat, "n1"%string. cbn [fst]. split; [now right; left|exact H].
Qed.
Print Assumptions C123_later_refuted.
