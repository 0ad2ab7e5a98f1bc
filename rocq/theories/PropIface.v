(** Property theorems C156: subscribers that go by the interface of a notification. *)
From Verif Require Import Base PyDate Recurrent CalTime Event Storage ICal System Deliver Subscribe
  QueryProofs EventProofs SpecProofs SystemProofs StoreProofs ImportContent DeliverProofs PropEvent PropSystem PropDeliver PropTold.

(** ** Specification *)
(** what is said about an event under each name *)
Definition says (i : iface) (x : notification) : Prop :=
  match i with
  | IEventEvent => True
  | IEventCreatedEvent => exists u, x = NCreated u
  | IEventModifiedEvent => (exists u, x = NModified u) \/ exists u a old new, x = NParticipation u a old new
  | IEventDeletedEvent => exists u, x = NDeleted u
  | IEventParticipationChangeEvent => exists u a old new, x = NParticipation u a old new
  end.

(** the part of a list that somebody wants who names these *)
Inductive wanted (l : list iface) : list notification -> list notification -> Prop :=
| wanted_nil : wanted l [] []
| wanted_yes i x n m : In i l -> says i x -> wanted l n m -> wanted l (x :: n) (x :: m)
| wanted_no x n m : (forall i, In i l -> ~ says i x) -> wanted l n m -> wanted l (x :: n) m.

(** ** An object provides an interface exactly if it says that; a change of participation is a modification *)
Theorem C156_interfaces : forall i x, provided_by i x = true <-> says i x.
Proof.
  assert (T : forall P : Prop, P -> (true = true <-> P)) by tauto.
  assert (F : forall P : Prop, ~ P -> (false = true <-> P)) by (intros P H; split; [discriminate|contradiction]).
  intros i x. destruct i, x; cbn [says];
    match goal with |- provided_by ?i ?x = true <-> _ => let v := eval cbv in (if provided_by i x then true else false) in change (provided_by i x) with v end;
    first [apply F; intros H; repeat match goal with H : exists _, _ |- _ => destruct H | H : _ \/ _ |- _ => destruct H end; discriminate|apply T].
  all: try exact I; try (do 4 eexists; reflexivity); try (eexists; reflexivity); try (left; eexists; reflexivity); right; do 4 eexists; reflexivity.
Qed.
Print Assumptions C156_interfaces.

Lemma wanted_filter l n : wanted l n (filter (fun x => existsb (fun i => provided_by i x) l) n).
Proof.
  induction n as [|x n IH]; [constructor|]. cbn [filter]. destruct (existsb (fun i => provided_by i x) l) eqn:E.
  - apply existsb_exists in E as (i & I & P). apply C156_interfaces in P. now apply (wanted_yes l i).
  - constructor; [|exact IH]. intros i I S. apply C156_interfaces in S. assert (X : existsb (fun i => provided_by i x) l = true) by (apply existsb_exists; eauto). congruence.
Qed.

Lemma wanted_det l n m : wanted l n m -> m = filter (fun x => existsb (fun i => provided_by i x) l) n.
Proof.
  induction 1 as [|i x n m I S W IH|x n m N W IH]; [reflexivity| |]; cbn [filter].
  - replace (existsb _ l) with true; [now rewrite <- IH|]. symmetry. apply existsb_exists. exists i. split; [exact I|now apply C156_interfaces].
  - destruct (existsb _ l) eqn:E; [|exact IH]. apply existsb_exists in E as (i & I & P). apply C156_interfaces in P. now elim (N i I).
Qed.

(** ** Proofs *)
Definition noted (l : list iface) (n : list notification) := filter (fun x => existsb (fun i => provided_by i x) l) n.
Definition R_noted {M} (l : list iface) (k : list hearing * M) (s : system) (n : list notification) (k' : list hearing * M) (s' : system) (b : bool) : Prop :=
  b = false -> exists new, fst k' = fst k ++ new /\ map what new = noted l n.

Lemma noted_refl {M} l : R_refl (@R_noted M l).
Proof. intros k s b _. exists []. split; [now rewrite app_nil_r|reflexivity]. Qed.
Lemma noted_trans {M} l : R_trans (@R_noted M l).
Proof.
  intros k s n1 k1 s1 n2 k2 s2 b H1 H2 B. destruct (H1 eq_refl) as (a & E1 & N1). destruct (H2 B) as (c & E2 & N2).
  exists (a ++ c). rewrite E2, E1, app_assoc. split; [reflexivity|]. unfold noted in *. now rewrite map_app, filter_app, N1, N2.
Qed.

Lemma carry_noted {M} l act (p : program M) : (forall k s o, leads (R_noted l) k s (act k s o)) -> gives_up p ->
  forall h s, R_noted (M := M) l (h, match p with Return k _ => k | Call k _ _ => k end) s (snt (snd (carry_out act s (beside h p)))) (fst (carry_out act s (beside h p)))
     (sst (snd (carry_out act s (beside h p)))) (fuel_out (srs (snd (carry_out act s (beside h p))))).
Proof.
  intros A. induction p as [k r|k o next IH]; intros G h s; cbn [beside carry_out].
  - intros _. exists []. cbn. split; [now rewrite app_nil_r|reflexivity].
  - destruct G as [G1 G2]. pose proof (A (h, k) s o) as X. unfold leads in X. destruct (act (h, k) s o) as [[h1 k1] [[s1 n1] r1]].
    unfold snt, srs, sst in *. cbn [fst snd] in *. destruct r1 as [u|e|].
    + specialize (IH k1 s1 (Ok u) (G2 _ _ _) h1 s1). destruct (carry_out act s1 (beside h1 (next k1 s1 (Ok u)))) as [k2 [[s2 n2] r2]]. cbn [fst snd] in *.
      intros B. destruct (X eq_refl) as (a & E1 & N1). destruct (IH B) as (c & E2 & N2). cbn [fst] in *. exists (a ++ c). rewrite E2, E1, app_assoc.
      split; [reflexivity|]. unfold noted in *. now rewrite map_app, filter_app, N1, N2.
    + specialize (IH k1 s1 (Raise e) (G2 _ _ _) h1 s1). destruct (carry_out act s1 (beside h1 (next k1 s1 (Raise e)))) as [k2 [[s2 n2] r2]]. cbn [fst snd] in *.
      intros B. destruct (X eq_refl) as (a & E1 & N1). destruct (IH B) as (c & E2 & N2). cbn [fst] in *. exists (a ++ c). rewrite E2, E1, app_assoc.
      split; [reflexivity|]. unfold noted in *. now rewrite map_app, filter_app, N1, N2.
    + destruct (G1 k1 s1) as [k' ->]. cbn. intros B. discriminate B.
Qed.

Lemma others_noted {M} l act (subs : list (watcher M)) r x : (forall k s o, leads (R_noted l) k s (act k s o)) -> all_give_up subs ->
  forall k s, leads (R_noted l) k s (each_on act (map aside subs) k s r x).
Proof.
  intros A. induction subs as [|w subs IH]; intros G k s; cbn [map each_on]; [apply nothing, noted_refl|].
  apply tbind_leads; [apply noted_trans| |intros u _; apply IH; intros w0 k0 s0 r0 x0 I0; apply G; now right].
  unfold aside. pose proof (carry_noted l act (w (snd k) s r x) A (G w _ _ _ _ (or_introl eq_refl)) (fst k) s) as X.
  unfold leads. intros B. destruct (X B) as (c & E & N). now exists c.
Qed.

Lemma told_noted {M} l cf (subs : list (watcher M)) depth : all_give_up subs ->
  forall k s0 s r x, let m := deliver depth cf (if_provides l scribe :: map aside subs) k s r x in
    R_noted l k s0 (x :: snt (snd m)) (fst m) (sst (snd m)) (fuel_out (srs (snd m))).
Proof.
  intros G. induction depth as [|d IH]; intros k s0 s r x; cbn zeta; cbn [deliver]; [intros B; discriminate B|].
  assert (A : forall k s o, leads (R_noted l) k s (step_on (deliver d cf (if_provides l scribe :: map aside subs)) cf k s o)).
  { intros k1 s1 o. apply (step_leads cf (fun _ _ => True) (fun _ => True)); auto.
    - apply noted_refl.
    - apply noted_trans.
    - intros k2 s2 o2 _ _ _. exists []. split; [now rewrite app_nil_r|reflexivity].
    - intros k2 s2 o2 s3 x2 _ _ _. apply IH.
    - intros k2 s2 r2 sp s3 v u _ _ _ _ _ _. apply IH. }
  pose proof (others_noted l _ subs r x A G) as O. clear A IH. revert O. generalize (step_on (deliver d cf (if_provides l scribe :: map aside subs)) cf). intros act O.
  cbn [each_on].
  change (if_provides l scribe k s r x) with (if existsb (fun i => provided_by i x) l then fine (fst k ++ [(s, r, x)], snd k) else Return k (Ok tt)).
  unfold noted. destruct (existsb (fun i => provided_by i x) l) eqn:E; cbn [carry_out fine tbind].
  - specialize (O (fst k ++ [(s, r, x)], snd k) s). unfold leads in O. destruct (each_on _ _ _ _ _ _) as [k2 [[s2 n2] r2]].
    unfold snt, srs, sst in *. cbn [fst snd app] in *. intros B. destruct (O B) as (c & E2 & N2). exists ((s, r, x) :: c).
    rewrite E2. cbn [fst]. rewrite <- app_assoc. split; [reflexivity|]. unfold noted in *. cbn [map filter]. rewrite E, N2. reflexivity.
  - specialize (O k s). unfold leads in O. destruct (each_on _ _ _ _ _ _) as [k2 [[s2 n2] r2]].
    unfold snt, srs, sst in *. cbn [fst snd app] in *. intros B. destruct (O B) as (c & E2 & N2). exists c.
    rewrite E2. split; [reflexivity|]. unfold noted in *. cbn [filter]. now rewrite E.
Qed.

(** ** Somebody who names interfaces hears just what they say, in the order in which it is sent *)
Theorem C156_heard : forall M depth cf (subs : list (watcher M)) l h k s o h' k' s' n r, all_give_up subs ->
  step_told depth cf (if_provides l scribe :: map aside subs) (h, k) s o = ((h', k'), (s', n, r)) -> r <> OutOfFuel ->
  exists new, h' = h ++ new /\ wanted l n (map what new).
Proof.
  intros M depth cf subs l h k s o h' k' s' n r G E N.
  assert (X : leads (R_noted l) (h, k) s (step_told depth cf (if_provides l scribe :: map aside subs) (h, k) s o)).
  { apply (step_leads cf (fun _ _ => True) (fun _ => True)); auto.
    - apply noted_refl.
    - apply noted_trans.
    - intros k2 s2 o2 _ _ _. exists []. split; [now rewrite app_nil_r|reflexivity].
    - intros k2 s2 o2 s3 x2 _ _ _. now apply told_noted.
    - intros k2 s2 r2 sp s3 v u _ _ _ _ _ _. now apply told_noted. }
  unfold leads in X. rewrite E in X. unfold snt, srs, sst in X. cbn [fst snd] in X.
  destruct X as (new & E1 & E2); [destruct r; [reflexivity..|now elim N]|]. exists new. split; [exact E1|]. rewrite E2. apply wanted_filter.
Qed.
Print Assumptions C156_heard.

(** ** Everything is heard exactly by those who name the base interface, or creations,
    modifications and deletions *)
Theorem C156_everything : forall l,
  (In IEventEvent l \/ (In IEventCreatedEvent l /\ In IEventModifiedEvent l /\ In IEventDeletedEvent l))
  <-> forall n, wanted l n n.
Proof.
  intros l. split.
  - intros H. induction n as [|x n IH]; [constructor|]. destruct H as [H|(H1 & H2 & H3)].
    + apply (wanted_yes l IEventEvent); [exact H|exact I|exact IH].
    + destruct x; [apply (wanted_yes l IEventCreatedEvent)|apply (wanted_yes l IEventModifiedEvent)|apply (wanted_yes l IEventDeletedEvent)
        |apply (wanted_yes l IEventModifiedEvent)]; cbn; eauto 10.
  - intros H. assert (K : forall x, exists i, In i l /\ says i x).
    { intros x. pose proof (wanted_det l [x] [x] (H [x])) as X. cbn [filter] in X. destruct (existsb _ l) eqn:E; [|discriminate X].
      apply existsb_exists in E as (i & I & P). exists i. split; [exact I|now apply C156_interfaces]. }
    destruct (in_dec iface_dec IEventEvent l) as [I|NI]; [now left|right].
    split; [|split].
    + destruct (K (NCreated "")) as (i & I & S). destruct i; cbn in S; auto; try contradiction;
        repeat match goal with H : exists _, _ |- _ => destruct H | H : _ \/ _ |- _ => destruct H end; discriminate.
    + destruct (K (NModified "")) as (i & I & S). destruct i; cbn in S; auto; try contradiction;
        repeat match goal with H : exists _, _ |- _ => destruct H | H : _ \/ _ |- _ => destruct H end; discriminate.
    + destruct (K (NDeleted "")) as (i & I & S). destruct i; cbn in S; auto; try contradiction;
        repeat match goal with H : exists _, _ |- _ => destruct H | H : _ \/ _ |- _ => destruct H end; discriminate.
Qed.
Print Assumptions C156_everything.

(** ** What one hears by each interface, from the whole list *)
Theorem C156_split : forall n c m d, wanted [IEventCreatedEvent] n c -> wanted [IEventModifiedEvent] n m -> wanted [IEventDeletedEvent] n d ->
  (forall x, In x n <-> In x c \/ In x m \/ In x d) /\ List.length n = (List.length c + List.length m + List.length d)%nat
  /\ forall p, wanted [IEventParticipationChangeEvent] n p -> wanted [IEventParticipationChangeEvent] m p.
Proof.
  intros n c m d C Mo D. apply wanted_det in C, Mo, D. subst c m d. split; [|split].
  - intros x. rewrite !filter_In. destruct x; vm_compute; intuition discriminate.
  - induction n as [|x n IH]; [reflexivity|]. cbn [filter List.length]. rewrite IH. destruct x; vm_compute existsb; cbn [List.length]; lia.
  - intros p P. apply wanted_det in P. subst p.
    enough (E : filter (fun x => existsb (fun i => provided_by i x) [IEventParticipationChangeEvent]) n
      = filter (fun x => existsb (fun i => provided_by i x) [IEventParticipationChangeEvent])
          (filter (fun x => existsb (fun i => provided_by i x) [IEventModifiedEvent]) n)) by (rewrite E; apply wanted_filter).
    assert (PQ : forall x, existsb (fun i => provided_by i x) [IEventParticipationChangeEvent] = true -> existsb (fun i => provided_by i x) [IEventModifiedEvent] = true)
      by (intros []; vm_compute; auto).
    induction n as [|x n IH]; [reflexivity|]. cbn [filter]. specialize (PQ x).
    destruct (existsb _ [IEventParticipationChangeEvent]) eqn:P.
    + rewrite (PQ eq_refl). cbn [filter]. now rewrite P, IH.
    + destruct (existsb _ [IEventModifiedEvent]); [cbn [filter]; now rewrite P|exact IH].
Qed.
Print Assumptions C156_split.

(** a new event, to which somebody invites bob and for whom bob's answer comes at once *)
Example C156_case : let subs := [inviter [bob]; accept] : list (watcher unit) in
  let m l := step_told 3 cf0 (if_provides l scribe :: map aside subs) ([], tt) (run cf0 office) a_plan in
  all_give_up subs
  /\ srs (snd (m [])) = Ok tt
  /\ map what (fst (fst (m [IEventCreatedEvent]))) = [NCreated "n1"]%string
  /\ map what (fst (fst (m [IEventModifiedEvent]))) = [NParticipation "n1" "bob" None (Some "NEEDS-ACTION");
                              NParticipation "n1" "bob" (Some "NEEDS-ACTION") (Some "ACCEPTED")]%string
  /\ map what (fst (fst (m [IEventDeletedEvent]))) = []
  /\ map what (fst (fst (m [IEventEvent]))) = snt (snd (m [])).
Proof.
  split; [intros w k s r x [<-|[<-|[]]]; [apply inviter_gives_up|apply accept_gives_up]|].
  vm_compute. auto 10.
Qed.
