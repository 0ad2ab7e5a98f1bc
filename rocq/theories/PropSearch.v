(** Property theorems C55, continued: the loops of the attendee searches.
    getName and [self.attendees] are missing (C55_search_refuted).  With attendees
    that have a getName, and with the dictionary of attendees, the loops find exactly
    what is asked for. *)
From Verif Require Import Base PyDate Recurrent CalTime Event Storage ICal System RuleText.
From Verif Require Import TimeProofs QueryProofs EventProofs SystemProofs StoreProofs PropEvent PropSystem.

(** ** Specification *)
Definition occurs_in (q name : string) : Prop := exists before after, name = (before ++ q ++ after)%string.
Definition has_type (s : system) (i t : string) : Prop := exists name, dget (sys_source s) i = Some (name, t).

(** ** Proofs *)
Lemma prefix_iff q : forall name, String.prefix q name = true <-> exists r, name = (q ++ r)%string.
Proof.
  induction q as [|a q IH]; intros name.
  - split; [intros _; now exists name|]. intros _. now destruct name.
  - destruct name as [|b name]; [split; [discriminate|intros [r H]; discriminate]|]. cbn.
    destruct (Ascii.ascii_dec a b) as [->|NE].
    + rewrite IH. split; intros [r H]; exists r; congruence.
    + split; [discriminate|]. intros [r H]. congruence.
Qed.

Lemma contains_iff q name : contains q name = true <-> occurs_in q name.
Proof.
  unfold occurs_in. induction name as [|c name IH]; cbn [contains].
  - rewrite orb_false_r, prefix_iff. split; [intros [r H]; exists ""%string, r; exact H|].
    intros (b & r & H). destruct b; [exists r; exact H|discriminate].
  - rewrite orb_true_iff, IH, prefix_iff. split.
    + intros [[r H]|(b & r & H)]; [exists ""%string, r; exact H|]. exists (String c b), r. cbn. congruence.
    + intros (b & r & H). destruct b as [|a b]; [left; exists r; exact H|right]. exists b, r. cbn in H. congruence.
Qed.

Lemma source_type s i : In i (dkeys (sys_source s)) -> exists t, attendee_type s i = Ok t /\ has_type s i t.
Proof.
  intros H. unfold attendee_type, has_type. destruct (dget (sys_source s) i) as [[name t]|] eqn:D; [eauto|].
  exfalso. unfold dkeys in H. clear - H D. induction (sys_source s) as [|[k v] d IH]; [destruct H|]. cbn in *.
  destruct (String.eqb_spec i k) as [->|NE]; [discriminate|]. destruct H as [H|H]; [congruence|auto].
Qed.

Lemma rfilter_ok {A} (f : A -> res bool) l : (forall x, In x l -> exists b, f x = Ok b) -> exists out, rfilter f l = Ok out.
Proof.
  induction l as [|x l IH]; intros H; cbn [rfilter]; [eauto|]. destruct (H x (or_introl eq_refl)) as [b ->]. cbn [rbind].
  destruct IH as [o ->]; [intros y Y; apply H; now right|]. cbn [rbind]. eauto.
Qed.

(** * C55 *)
Theorem C55_search_with_names_partial : forall s names q typ,
  exists l, find_by_name_with (fun i => Ok (names i)) s q typ = Ok l
  /\ (NoDup (dkeys (sys_source s)) -> NoDup l)
  /\ forall i, In i l <-> In i (dkeys (sys_source s)) /\ occurs_in q (names i) /\ forall t, typ = Some t -> has_type s i t.
Proof.
  intros s names q typ. unfold find_by_name_with. cbn [rbind].
  set (f := fun i => if negb (contains q (names i)) then Ok false else match typ with None => Ok true | Some t => let* t' := attendee_type s i in Ok (String.eqb t' t) end).
  destruct (rfilter_ok f (dkeys (sys_source s))) as [l E].
  { intros i H. unfold f. destruct (negb (contains q (names i))); [eauto|]. destruct typ as [t|]; [|eauto].
    destruct (source_type s i H) as (t' & -> & _). cbn. eauto. }
  exists l. split; [exact E|]. split; [exact (rfilter_sub _ _ _ E)|].
  intros i. rewrite (rfilter_is_filter _ _ _ E), filter_In. split.
  - intros [H1 H2]. split; [exact H1|]. unfold f in H2. destruct (contains q (names i)) eqn:C; cbn [negb] in H2; [|discriminate].
    split; [now apply contains_iff|]. intros t ->. destruct (source_type s i H1) as (t' & T1 & T2). rewrite T1 in H2. cbn in H2.
    destruct (String.eqb_spec t' t) as [X|]; [now rewrite <- X|discriminate].
  - intros (H1 & H2 & H3). split; [exact H1|]. unfold f. apply contains_iff in H2. rewrite H2. cbn [negb].
    destruct typ as [t|]; [|reflexivity]. destruct (H3 t eq_refl) as [name D]. unfold attendee_type. rewrite D. cbn. now rewrite String.eqb_refl.
Qed.
Print Assumptions C55_search_with_names_partial.

Theorem C55_of_type_with_attendees_partial : forall s typ,
  exists l, attendees_of_type_with (Ok (dkeys (sys_source s))) s typ = Ok l
  /\ (NoDup (dkeys (sys_source s)) -> NoDup l)
  /\ forall i, In i l <-> In i (dkeys (sys_source s)) /\ has_type s i typ.
Proof.
  intros s typ. unfold attendees_of_type_with. cbn [rbind].
  set (f := fun i => let* t := attendee_type s i in Ok (String.eqb typ t)).
  destruct (rfilter_ok f (dkeys (sys_source s))) as [l E].
  { intros i H. unfold f. destruct (source_type s i H) as (t' & -> & _). cbn. eauto. }
  exists l. split; [exact E|]. split; [exact (rfilter_sub _ _ _ E)|].
  intros i. rewrite (rfilter_is_filter _ _ _ E), filter_In. split.
  - intros [H1 H2]. split; [exact H1|]. unfold f in H2. destruct (source_type s i H1) as (t' & T1 & T2). rewrite T1 in H2. cbn in H2.
    destruct (String.eqb_spec typ t') as [X|]; [now rewrite X|discriminate].
  - intros (H1 & [name D]). split; [exact H1|]. unfold f, attendee_type. rewrite D. cbn. now rewrite String.eqb_refl.
Qed.
Print Assumptions C55_of_type_with_attendees_partial.

Example C55_with_names_ex : let s := run cf0 (office ++ [OAttendee "lab" "Lab" "ROOM"%string]) in
  reachable cf0 s
  /\ find_by_name_with (fun i => Ok (match dget (sys_source s) i with Some (n, _) => n | None => "" end)%string) s "b" None = Ok ["bob"; "lab"]%string
  /\ find_by_name_with (fun i => Ok (match dget (sys_source s) i with Some (n, _) => n | None => "" end)%string) s "b" (Some "ROOM"%string) = Ok ["lab"]%string
  /\ attendees_of_type_with (Ok (dkeys (sys_source s))) s "INDIVIDUAL" = Ok ["ann"; "bob"]%string.
Proof. cbv zeta. split; [apply run_reachable|]. vm_compute. auto. Qed.
