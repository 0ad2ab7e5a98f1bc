(** Property theorems C175: several people editing one event at the same time (cal.py 87-105). *)
From Verif Require Import Base PyDate DateFacts Recurrent CalTime TimeProofs Event Storage ICal System
  QueryProofs EventProofs SpecProofs SystemProofs PropEvent PropSystem PropAlias Editors.
From Coq Require Import Permutation.
Local Opaque ord2ymd year_of month_of day_of ymd2ord days_in_month is_leap.

(** ** specification *)
(** the event has, for this attribute, the value of the specification; rules are compared with
    ==, categories as sets *)
Definition has_value (f : field) (s : spec) (e : event) : Prop :=
  match f with
  | FStart => e_dtstart e = s_dtstart s
  | FDuration => e_duration e = s_duration s
  | FTitle => e_title e = s_title s
  | FDescription => e_description e = s_description s
  | FLocation => e_location e = s_location s
  | FStatus => e_status e = s_status s
  | FRule => match e_recurrence e, s_recurrence s with Some a, Some b => rule_eq a b = true | None, None => True | _, _ => False end
  | FAllday => e_allday e = s_allday s
  | FCategories => forall x, In x (e_categories e) <-> In x (s_categories s)
  | FTransparent => e_transparent e = s_transparent s
  | FAccess => e_access e = s_access s
  | FDocument => e_document e = s_document s
  end.
(** two events have the same value *)
Definition same_value (f : field) (e e' : event) : Prop :=
  match f with
  | FStart => e_dtstart e = e_dtstart e'
  | FDuration => e_duration e = e_duration e'
  | FTitle => e_title e = e_title e'
  | FDescription => e_description e = e_description e'
  | FLocation => e_location e = e_location e'
  | FStatus => e_status e = e_status e'
  | FRule => e_recurrence e = e_recurrence e'
  | FAllday => e_allday e = e_allday e'
  | FCategories => e_categories e = e_categories e'
  | FTransparent => e_transparent e = e_transparent e'
  | FAccess => e_access e = e_access e'
  | FDocument => e_document e = e_document e'
  end.
Definition people_same (e e' : event) : Prop := e_organizer e = e_organizer e' /\ e_state e = e_state e' /\ e_role e = e_role e'.
(** the editor is through with the attribute *)
Definition through_with (f : field) (t : editor) : Prop :=
  match t with ELook fs => ~ In f fs | EPut g fs => f <> g /\ ~ In f fs | _ => True end.

(** ** values *)
Lemma holds_has f s e : holds_value f s e = true <-> has_value f s e.
Proof.
  assert (S : forall a b, String.eqb a b = true <-> a = b) by (intros; apply String.eqb_eq).
  assert (B : forall a b, Bool.eqb a b = true <-> a = b) by (intros; apply Bool.eqb_true_iff).
  destruct f; cbn [holds_value has_value]; auto.
  - apply Z.eqb_eq.
  - destruct (e_duration e), (s_duration s); cbn; [rewrite Z.eqb_eq|..]; split; intros H; congruence.
  - destruct (e_recurrence e), (s_recurrence s); cbn [opt_rule_eqb]; split; auto; try discriminate; tauto.
  - unfold set_eqb. rewrite andb_true_iff, !forallb_forall. split.
    + intros [H1 H2] x. split; intros X; [apply H1 in X|apply H2 in X]; now apply str_in_iff in X.
    + intros H. split; intros x X; apply str_in_iff; now apply H.
  - destruct (e_document e), (s_document s); cbn; [rewrite String.eqb_eq|..]; split; intros H; congruence.
Qed.

Lemma put_has f s e : has_value f s (put_value f s e).
Proof.
  destruct f; cbn; try reflexivity. destruct (s_recurrence s) as [r|]; [apply rule_eq_refl|exact I].
Qed.
Lemma put_value_other f g s e : f <> g -> same_value g (put_value f s e) e.
Proof. intros N. destruct f, g; cbn; try reflexivity; contradiction. Qed.
Lemma put_people f s e : people_same (put_value f s e) e.
Proof. repeat split. Qed.
Lemma same_has f s e e' : same_value f e e' -> has_value f s e' -> has_value f s e.
Proof. destruct f; cbn; intros ->; auto. Qed.
Lemma same_value_refl f e : same_value f e e.
Proof. destruct f; reflexivity. Qed.

Lemma deed_values d e f : same_value f (fst (fst (do_deed d e))) e.
Proof.
  destruct d as [a st|a ro|o]; cbn [do_deed].
  - unfold set_status_raw. destruct (attendee_id a) as [i| |]; [|apply same_value_refl..]. destruct st; [destruct f; reflexivity|].
    destruct (ddel (e_state e) i); [|apply same_value_refl..]. destruct (ddel _ i); destruct f; reflexivity.
  - unfold set_role. destruct (str_in ro roles); [|apply same_value_refl]. destruct (attendee_id a); destruct f; reflexivity.
  - destruct f; reflexivity.
Qed.

Lemma in_replace {A} k (l : list A) y x : In x (replace_nth k l y) -> In x l \/ x = y.
Proof.
  revert k. induction l as [|a l IH]; intros [|k] H; cbn in *; auto; [destruct H as [<-|H]; auto|]. destruct H as [H|H]; [auto|]. destruct (IH k H); auto.
Qed.
Lemma fst_replace k (l : list (spec * editor)) s t t' : nth_error l k = Some (s, t) -> map fst (replace_nth k l (s, t')) = map fst l.
Proof.
  revert k. induction l as [|a l IH]; intros [|k] H; cbn in *; try discriminate; [injection H as ->; reflexivity|]. f_equal. now apply IH.
Qed.

Lemma edits_snoc e l ks k : edits e l (ks ++ [k]) = ego (edits e l ks) k.
Proof. unfold edits. now rewrite fold_left_app. Qed.

Lemma edits_specs e l ks : map fst (snd (edits e l ks)) = map fst l.
Proof.
  induction ks as [|k ks IH] using rev_ind.
  - cbn. rewrite map_map. reflexivity.
  - rewrite edits_snoc. destruct (edits e l ks) as [e1 w]. cbn [snd] in IH. unfold ego. destruct (nth_error w k) as [[s t]|] eqn:E; [|exact IH].
    destruct (estep s e1 t) as [e' t'] eqn:ES. cbn [snd]. rewrite (fst_replace k w s t t' E). exact IH.
Qed.

(** ** the attributes *)
Lemma edits_inv e l ks : let '(e1, w) := edits e l ks in
  (forall f s t, In (s, t) w -> (forall x, In x l -> In f (snd x)) -> through_with f t -> exists s', In s' (map fst l) /\ has_value f s' e1)
  /\ forall f, same_value f e1 e \/ exists s, In s (map fst l) /\ has_value f s e1.
Proof.
  induction ks as [|k ks IH] using rev_ind.
  - cbn. split; [|intros f; left; apply same_value_refl]. intros f s t H C B. apply in_map_iff in H as ([s0 fs] & E & I). injection E as <- <-.
    exfalso. apply B. exact (C (s0, fs) I).
  - rewrite edits_snoc. pose proof (edits_specs e l ks) as SP. destruct (edits e l ks) as [e1 w]. destruct IH as [IH1 IH2]. cbn [snd] in SP.
    unfold ego. destruct (nth_error w k) as [[s t]|] eqn:E; [|auto]. pose proof (nth_error_In _ _ E) as IN.
    assert (IS : In s (map fst l)) by (rewrite <- SP; apply in_map_iff; now exists (s, t)).
    destruct t as [[|g fs]|g fs|[|d ds]|r]; cbn [estep].
    + split; [|exact IH2]. intros f s' t' H C B. apply in_replace in H as [H|H]; [now apply (IH1 f s' t')|]. injection H as -> ->. now apply (IH1 f s (ELook [])).
    + split; [|exact IH2]. intros f s' t' H C B. apply in_replace in H as [H|H]; [now apply (IH1 f s' t')|]. injection H as -> ->.
      destruct (field_eq f g) as [->|N].
      * destruct (holds_value g s e1) eqn:HV; [exists s; split; [exact IS|now apply holds_has]|]. destruct B as [B _]. contradiction.
      * apply (IH1 f s (ELook (g :: fs)) IN C). cbn. intros [X|X]; [congruence|]. destruct (holds_value g s e1); cbn in B; tauto.
    + split.
      * intros f s' t' H C B. destruct (field_eq f g) as [->|N]; [exists s; split; [exact IS|apply put_has]|].
        assert (X : exists s'', In s'' (map fst l) /\ has_value f s'' e1).
        { apply in_replace in H as [H|H]; [now apply (IH1 f s' t')|]. injection H as -> ->. apply (IH1 f s (EPut g fs) IN C). cbn in *. auto. }
        destruct X as (s'' & X1 & X2). exists s''. split; [exact X1|]. eapply same_has; [apply put_value_other; congruence|exact X2].
      * intros f. destruct (field_eq f g) as [->|N]; [right; exists s; split; [exact IS|apply put_has]|].
        pose proof (put_value_other g f s e1 ltac:(congruence)) as PO. destruct (IH2 f) as [X|(s'' & X1 & X2)].
        -- left. destruct f; cbn in *; congruence.
        -- right. exists s''. split; [exact X1|]. eapply same_has; [exact PO|exact X2].
    + split; [|exact IH2]. intros f s' t' H C B. apply in_replace in H as [H|H]; [now apply (IH1 f s' t')|]. injection H as -> ->. now apply (IH1 f s (EPeople [])).
    + pose proof (deed_values d e1) as DV. destruct (do_deed d e1) as [[e2 n] r]. cbn [fst] in DV. split.
      * intros f s' t' H C B. assert (X : exists s'', In s'' (map fst l) /\ has_value f s'' e1).
        { apply in_replace in H as [H|H]; [now apply (IH1 f s' t')|]. injection H as -> ->. now apply (IH1 f s (EPeople (d :: ds)) IN C). }
        destruct X as (s'' & X1 & X2). exists s''. split; [exact X1|]. eapply same_has; [apply DV|exact X2].
      * intros f. destruct (IH2 f) as [X|(s'' & X1 & X2)].
        -- left. specialize (DV f). destruct f; cbn in *; congruence.
        -- right. exists s''. split; [exact X1|]. eapply same_has; [apply DV|exact X2].
    + split; [|exact IH2]. intros f s' t' H C B. apply in_replace in H as [H|H]; [now apply (IH1 f s' t')|]. injection H as -> ->. now apply (IH1 f s (EOver r)).
Qed.

(** Whatever the order of the attributes and of the turns: an attribute never has a value that
    neither the event had nor an editor wants; once some editor is through with an attribute, it
    has the value that one of the editors wants; so if all want the same, that one. *)
Theorem C175_attributes e l ks : (forall x, In x l -> Permutation (snd x) all_fields) ->
  let '(e1, w) := edits e l ks in
  (forall f, same_value f e1 e \/ exists s, In s (map fst l) /\ has_value f s e1)
  /\ (forall f s t, In (s, t) w -> through_with f t -> exists s', In s' (map fst l) /\ has_value f s' e1)
  /\ (forall f s t s0, In (s, t) w -> through_with f t -> (forall s' e', In s' (map fst l) -> has_value f s' e' -> has_value f s0 e') -> has_value f s0 e1).
Proof.
  intros P. pose proof (edits_inv e l ks) as H. destruct (edits e l ks) as [e1 w]. destruct H as [H1 H2].
  assert (C : forall f x, In x l -> In f (snd x)).
  { intros f x X. eapply Permutation_in; [apply Permutation_sym, P, X|]. destruct f; cbn; tauto. }
  assert (H1' : forall f s t, In (s, t) w -> through_with f t -> exists s', In s' (map fst l) /\ has_value f s' e1) by (intros f s t I B; apply (H1 f s t I (C f) B)).
  split; [exact H2|]. split; [exact H1'|]. intros f s t s0 I B A. destruct (H1' f s t I B) as (s' & I' & V). now apply (A s').
Qed.
Print Assumptions C175_attributes.

(** ** organizer and participants *)
(** nobody is to be removed *)
Definition keeps_all (s : spec) : Prop := Forall (fun x => snd x <> None) (s_attendees s).
Definition keeping (d : people_deed) : Prop := match d with DStatus _ None => False | _ => True end.

Lemma deeds_keep s : keeps_all s -> Forall keeping (deeds s).
Proof.
  intros K. unfold deeds. apply Forall_app. split; [destruct (s_organizer s); repeat constructor|].
  unfold keeps_all in K. induction K as [|[[a ro] st] r N K IH]; cbn; [constructor|]. cbn in N. constructor; [exact I|]. constructor; [|exact IH]. destruct st; [exact I|now destruct N].
Qed.

Lemma deed_keeps d e i : keeping d -> dget (e_state e) i <> None -> dget (e_state (fst (fst (do_deed d e)))) i <> None.
Proof.
  intros K H. destruct d as [a [st|]|a ro|o]; cbn [do_deed keeping] in *; [|contradiction| |exact H].
  - unfold set_status_raw. destruct (attendee_id a) as [j| |]; [|exact H..]. cbn [fst with_state e_state]. rewrite dget_dset. destruct (String.eqb _ _); [discriminate|exact H].
  - unfold set_role. destruct (str_in ro roles); [|exact H]. destruct (attendee_id a); exact H.
Qed.

(** the rest of an editor's calls *)
Definition tail_ok (s : spec) (e : event) (t : editor) : Prop :=
  match t with
  | EPeople l => exists pre, deeds s = pre ++ l /\ forall i, In (DStatus (Some i) (Some "ACCEPTED"%string)) pre -> dget (e_state e) i <> None
  | _ => True
  end.

Lemma organizer_before s pre o l : deeds s = pre ++ DOrganizer o :: l ->
  s_organizer s = o /\ forall i, o = Some i -> In (DStatus (Some i) (Some "ACCEPTED"%string)) pre.
Proof.
  intros H. assert (N : forall r, ~ In (DOrganizer o) (flat_map (fun x : attendee * string * option string => [DRole (fst (fst x)) (snd (fst x)); DStatus (fst (fst x)) (snd x)]) r)).
  { induction r as [|x r IH]; cbn; [auto|]. intros [X|[X|X]]; [discriminate..|now apply IH]. }
  specialize (N (s_attendees s)). unfold deeds in H. destruct (s_organizer s) as [i|].
  - destruct pre as [|d1 pre]; cbn in H; [discriminate|]. injection H as <- H. destruct pre as [|d2 pre]; cbn in H; [discriminate|]. injection H as <- H.
    destruct pre as [|d3 pre]; cbn in H; injection H as H3 H.
    + subst o. split; [reflexivity|]. intros j J. injection J as <-. now left.
    + exfalso. apply N. rewrite H. apply in_app_iff. right. now left.
  - destruct pre as [|d1 pre]; cbn in H; injection H as H1 H; [subst o; split; [reflexivity|intros; discriminate]|].
    exfalso. apply N. rewrite H. apply in_app_iff. right. now left.
Qed.

Lemma estep_keeps s e t : Forall keeping (deeds s) -> tail_ok s e t ->
  forall i, dget (e_state e) i <> None -> dget (e_state (fst (estep s e t))) i <> None.
Proof.
  intros K T i H. destruct t as [[|g fs]|g fs|[|d ds]|r]; cbn [estep fst]; try exact H. destruct T as (pre & D & _).
  pose proof (deed_keeps d e i) as DK. destruct (do_deed d e) as [[e2 n] r]. cbn [fst] in *. apply DK; [|exact H].
  rewrite D in K. apply Forall_app in K as [_ K]. now inversion K.
Qed.

Lemma edits_people e l ks : (forall x, In x l -> keeps_all (fst x)) -> (forall i, e_organizer e = Some i -> dget (e_state e) i <> None) ->
  let '(e1, w) := edits e l ks in
  Forall (fun x => tail_ok (fst x) e1 (snd x)) w
  /\ (forall i, dget (e_state e) i <> None -> dget (e_state e1) i <> None)
  /\ (forall i, e_organizer e1 = Some i -> dget (e_state e1) i <> None)
  /\ (e_organizer e1 = e_organizer e \/ exists s, In s (map fst l) /\ e_organizer e1 = s_organizer s).
Proof.
  intros K O. induction ks as [|k ks IH] using rev_ind.
  - cbn. split; [|auto]. apply Forall_forall. intros x H. apply in_map_iff in H as (y & <- & _). exact I.
  - rewrite edits_snoc. pose proof (edits_specs e l ks) as SP. destruct (edits e l ks) as [e1 w]. destruct IH as (I1 & I2 & I3 & I4). cbn [snd] in SP.
    unfold ego. destruct (nth_error w k) as [[s t]|] eqn:E; [|auto]. pose proof (nth_error_In _ _ E) as IN.
    assert (IS : In s (map fst l)) by (rewrite <- SP; apply in_map_iff; now exists (s, t)).
    assert (KS : Forall keeping (deeds s)) by (apply deeds_keep; apply in_map_iff in IS as (x & <- & X); now apply K).
    pose proof (proj1 (Forall_forall _ _) I1 _ IN) as TO. cbn [fst snd] in TO. pose proof (estep_keeps s e1 t KS TO) as SK.
    assert (OT : forall e2, (forall i, dget (e_state e1) i <> None -> dget (e_state e2) i <> None) -> Forall (fun x => tail_ok (fst x) e2 (snd x)) w).
    { intros e2 H2. apply Forall_forall. intros x X. pose proof (proj1 (Forall_forall _ _) I1 x X) as T. destruct x as [s' [fs'|g' fs'|ds|r']]; cbn in *; auto.
      destruct T as (pre & D & T). exists pre. split; [exact D|]. intros i Hi. now apply H2, T. }
    assert (RP : forall e2 t2, (forall i, dget (e_state e1) i <> None -> dget (e_state e2) i <> None) -> tail_ok s e2 t2 -> Forall (fun x => tail_ok (fst x) e2 (snd x)) (replace_nth k w (s, t2))).
    { intros e2 t2 H2 T2. apply Forall_forall. intros x X. apply in_replace in X as [X| ->]; [|exact T2]. exact (proj1 (Forall_forall _ _) (OT e2 H2) x X). }
    destruct t as [[|g fs]|g fs|[|d ds]|r]; cbn [estep fst] in *.
    + split; [apply RP; [auto|exists []; split; [reflexivity|intros i []]]|auto].
    + split; [apply RP; [auto|destruct (holds_value g s e1); exact I]|auto].
    + split; [apply RP; [auto|exact I]|auto].
    + split; [apply RP; [auto|exact I]|auto].
    + destruct TO as (pre & D & TO). destruct (do_deed d e1) as [[e2 n] r] eqn:DD. cbn [fst] in SK. split; [|split; [|split]].
      * apply RP; [exact SK|]. destruct r as [[]|x|]; cbn; [|exact I..]. exists (pre ++ [d]). split; [now rewrite <- app_assoc|].
        intros i Hi. apply in_app_iff in Hi as [Hi|[->|[]]]; [now apply SK, TO|]. cbn in DD. injection DD as <- _. cbn [with_state e_state]. rewrite dget_dset, String.eqb_refl. discriminate.
      * intros i Hi. apply SK, I2, Hi.
      * intros i Hi. destruct d as [a st|a ro|o]; cbn [do_deed] in DD.
        -- apply SK, I3. rewrite <- Hi. unfold set_status_raw in DD. destruct (attendee_id a); [|injection DD as <- _ _; reflexivity..]. destruct st; [injection DD as <- _ _; reflexivity|].
           destruct (ddel (e_state e1) _); [|injection DD as <- _ _; reflexivity..]. destruct (ddel _ _); injection DD as <- _ _; reflexivity.
        -- apply SK, I3. rewrite <- Hi. unfold set_role in DD. destruct (str_in ro roles); [|injection DD as <- _ _; reflexivity]. destruct (attendee_id a); injection DD as <- _ _; reflexivity.
        -- injection DD as <- _ _. cbn [with_organizer e_organizer e_state] in *. destruct (organizer_before s pre o ds D) as [_ OB]. apply TO, OB, Hi.
      * destruct d as [a st|a ro|o]; cbn [do_deed] in DD.
        -- assert (X : e_organizer e2 = e_organizer e1); [|rewrite X; exact I4]. unfold set_status_raw in DD. destruct (attendee_id a); [|injection DD as <- _ _; reflexivity..].
           destruct st; [injection DD as <- _ _; reflexivity|]. destruct (ddel (e_state e1) _); [|injection DD as <- _ _; reflexivity..]. destruct (ddel _ _); injection DD as <- _ _; reflexivity.
        -- assert (X : e_organizer e2 = e_organizer e1); [|rewrite X; exact I4]. unfold set_role in DD. destruct (str_in ro roles); [|injection DD as <- _ _; reflexivity].
           destruct (attendee_id a); injection DD as <- _ _; reflexivity.
        -- injection DD as <- _ _. right. exists s. split; [exact IS|]. destruct (organizer_before s pre o ds D) as [OB _]. now rewrite OB.
    + split; [apply RP; [auto|exact I]|auto].
Qed.

(** If nobody is to be removed: who takes part goes on taking part, the organizer is always the
    old one or one that an editor wants, and always takes part. *)
Theorem C175_organizer e l ks : (forall x, In x l -> keeps_all (fst x)) -> (forall i, e_organizer e = Some i -> dget (e_state e) i <> None) ->
  let e1 := fst (edits e l ks) in
  (forall i, dget (e_state e) i <> None -> dget (e_state e1) i <> None)
  /\ (forall i, e_organizer e1 = Some i -> dget (e_state e1) i <> None)
  /\ (e_organizer e1 = e_organizer e \/ exists s, In s (map fst l) /\ e_organizer e1 = s_organizer s).
Proof. intros K O. pose proof (edits_people e l ks K O) as H. destruct (edits e l ks) as [e1 w]. cbv zeta. cbn [fst]. tauto. Qed.
Print Assumptions C175_organizer.

(** ** participants *)
(** what a specification asks for: the organizer accepts as a required participant, and the
    attendees have their entries *)
Definition asks_status (s : spec) (i st : string) : Prop :=
  (s_organizer s = Some i /\ st = "ACCEPTED"%string) \/ exists ro, In (Some i, ro, Some st) (s_attendees s).
Definition asks_role (s : spec) (i ro : string) : Prop :=
  (s_organizer s = Some i /\ ro = "REQ-PARTICIPANT"%string) \/ exists st, In (Some i, ro, st) (s_attendees s).

Lemma deeds_status s i st : In (DStatus (Some i) (Some st)) (deeds s) <-> asks_status s i st.
Proof.
  unfold deeds, asks_status. rewrite in_app_iff, in_flat_map. split.
  - intros [H|([[a ro] x] & X & H)].
    + left. destruct (s_organizer s) as [j|]; cbn in H; repeat (destruct H as [H|H]; try discriminate); try contradiction. injection H as -> <-. auto.
    + right. cbn in H. destruct H as [H|[H|[]]]; [discriminate|]. injection H as -> ->. now exists ro.
  - intros [[O ->]|(ro & X)].
    + left. rewrite O. now left.
    + right. exists (Some i, ro, Some st). split; [exact X|]. right. now left.
Qed.

Lemma deeds_role s i ro : In (DRole (Some i) ro) (deeds s) <-> asks_role s i ro.
Proof.
  unfold deeds, asks_role. rewrite in_app_iff, in_flat_map. split.
  - intros [H|([[a x] st] & X & H)].
    + left. destruct (s_organizer s) as [j|]; cbn in H; repeat (destruct H as [H|H]; try discriminate); try contradiction. injection H as -> <-. auto.
    + right. cbn in H. destruct H as [H|[H|[]]]; [|discriminate]. injection H as -> ->. now exists st.
  - intros [[O ->]|(st & X)].
    + left. rewrite O. right. now left.
    + right. exists (Some i, ro, st). split; [exact X|]. now left.
Qed.

Lemma deeds_organizer s o : In (DOrganizer o) (deeds s) <-> o = s_organizer s.
Proof.
  split.
  - intros H. apply in_split in H as (pre & l & H). symmetry. exact (proj1 (organizer_before s pre o l H)).
  - intros ->. unfold deeds. apply in_app_iff. left. destruct (s_organizer s); cbn; auto.
Qed.

(** the event shows something that one of the specifications asks for *)
Definition state_asked (L : list spec) (e : event) (i : string) : Prop :=
  exists s st, In s L /\ asks_status s i st /\ dget (e_state e) i = Some st.
Definition role_asked (L : list spec) (e : event) (i : string) : Prop :=
  exists s ro, In s L /\ asks_role s i ro /\ dget (e_role e) i = Some ro.
Definition organizer_asked (L : list spec) (e : event) : Prop := exists s, In s L /\ e_organizer e = s_organizer s.

Definition deed_shows (L : list spec) (e : event) (d : people_deed) : Prop :=
  match d with
  | DStatus (Some i) (Some _) => state_asked L e i
  | DRole (Some i) _ => role_asked L e i
  | DOrganizer _ => organizer_asked L e
  | _ => True
  end.

(** what changes from one event to another has been asked for *)
Definition asked_in (L : list spec) (e e' : event) : Prop :=
  (forall i, dget (e_state e') i = dget (e_state e) i \/ state_asked L e' i)
  /\ (forall i, dget (e_role e') i = dget (e_role e) i \/ role_asked L e' i)
  /\ (e_organizer e' = e_organizer e \/ organizer_asked L e').

Lemma asked_refl L e : asked_in L e e.
Proof. repeat split; auto. Qed.

Lemma asked_trans L e1 e2 e3 : asked_in L e1 e2 -> asked_in L e2 e3 -> asked_in L e1 e3.
Proof.
  intros (S1 & R1 & O1) (S2 & R2 & O2). split; [|split].
  - intros i. destruct (S2 i) as [E|H]; [|auto]. destruct (S1 i) as [E1|(s & st & H1 & H2 & H3)]; [left; congruence|].
    right. exists s, st. rewrite E. auto.
  - intros i. destruct (R2 i) as [E|H]; [|auto]. destruct (R1 i) as [E1|(s & ro & H1 & H2 & H3)]; [left; congruence|].
    right. exists s, ro. rewrite E. auto.
  - destruct O2 as [E|H]; [|auto]. destruct O1 as [E1|(s & H1 & H2)]; [left; congruence|]. right. exists s. rewrite E. auto.
Qed.

Lemma shows_after L e e' d : asked_in L e e' -> deed_shows L e d -> deed_shows L e' d.
Proof.
  intros (S1 & R1 & O1). destruct d as [[i|] [st|]|[i|] ro|o]; cbn [deed_shows]; auto.
  - intros (s & st' & H1 & H2 & H3). destruct (S1 i) as [E|H]; [|exact H]. exists s, st'. rewrite E. auto.
  - intros (s & ro' & H1 & H2 & H3). destruct (R1 i) as [E|H]; [|exact H]. exists s, ro'. rewrite E. auto.
  - intros (s & H1 & H2). destruct O1 as [E|H]; [|exact H]. exists s. rewrite E. auto.
Qed.

Lemma deed_moves L s e d : In s L -> In d (deeds s) -> keeping d ->
  asked_in L e (fst (fst (do_deed d e))) /\ (snd (do_deed d e) = Ok tt -> deed_shows L (fst (fst (do_deed d e))) d).
Proof.
  intros IS ID K. destruct d as [[i|] [st|]|[i|] ro|o]; cbn [do_deed keeping] in *; try contradiction.
  - unfold set_status_raw. cbn [attendee_id fst snd deed_shows].
    assert (A : state_asked L (with_state e (dset (e_state e) i st)) i).
    { exists s, st. split; [exact IS|]. split; [now apply deeds_status|]. cbn [with_state e_state]. now rewrite dget_dset, String.eqb_refl. }
    split; [|auto]. split; [|split; auto]. intros j. destruct (String.eqb_spec i j) as [<-|N]; [auto|]. left. cbn [with_state e_state]. rewrite dget_dset.
    destruct (String.eqb_spec i j); destruct (String.eqb_spec j i); congruence.
  - split; [apply asked_refl|]. intros; exact I.
  - unfold set_role. destruct (str_in ro roles); cbn [attendee_id fst snd deed_shows]; [|split; [apply asked_refl|discriminate]].
    assert (A : role_asked L (with_role e (dset (e_role e) i ro)) i).
    { exists s, ro. split; [exact IS|]. split; [now apply deeds_role|]. cbn [with_role e_role]. now rewrite dget_dset, String.eqb_refl. }
    split; [|auto]. split; [auto|]. split; [|auto]. intros j. destruct (String.eqb_spec i j) as [<-|N]; [auto|]. left. cbn [with_role e_role]. rewrite dget_dset.
    destruct (String.eqb_spec i j); destruct (String.eqb_spec j i); congruence.
  - split; [|intros; exact I]. unfold set_role. destruct (str_in ro roles); apply asked_refl.
  - assert (A : organizer_asked L (with_organizer e o)) by (exists s; split; [exact IS|]; now apply deeds_organizer in ID).
    cbn [fst snd deed_shows]. split; [|auto]. split; [|split]; auto.
Qed.

(** the calls an editor has made show *)
Definition people_now (L : list spec) (s : spec) (e : event) (t : editor) : Prop :=
  match t with
  | EPeople l => exists pre, deeds s = pre ++ l /\ Forall (deed_shows L e) pre
  | EOver (Ok _) => Forall (deed_shows L e) (deeds s)
  | _ => True
  end.

Lemma edits_shows e l ks : (forall x, In x l -> keeps_all (fst x)) ->
  let '(e1, w) := edits e l ks in
  asked_in (map fst l) e e1 /\ forall s t, In (s, t) w -> people_now (map fst l) s e1 t.
Proof.
  intros K. induction ks as [|k ks IH] using rev_ind.
  - cbn. split; [apply asked_refl|]. intros s t H. apply in_map_iff in H as (y & Y & _). injection Y as <- <-. exact I.
  - rewrite edits_snoc. pose proof (edits_specs e l ks) as SP. destruct (edits e l ks) as [e1 w]. destruct IH as (I1 & I2). cbn [snd] in SP.
    unfold ego. destruct (nth_error w k) as [[s t]|] eqn:E; [|auto]. pose proof (nth_error_In _ _ E) as IN.
    assert (IS : In s (map fst l)) by (rewrite <- SP; apply in_map_iff; now exists (s, t)).
    assert (KS : Forall keeping (deeds s)) by (apply deeds_keep; apply in_map_iff in IS as (x & <- & X); now apply K).
    assert (G : forall e2 t2, asked_in (map fst l) e1 e2 -> people_now (map fst l) s e2 t2 ->
      asked_in (map fst l) e e2 /\ forall s' t', In (s', t') (replace_nth k w (s, t2)) -> people_now (map fst l) s' e2 t').
    { intros e2 t2 A2 P2. split; [exact (asked_trans _ _ _ _ I1 A2)|]. intros s' t' X. apply in_replace in X as [X|X]; [|injection X as -> ->; exact P2].
      specialize (I2 s' t' X). destruct t' as [fs|g fs|ds|[u|x|]]; cbn [people_now] in *; auto.
      - destruct I2 as (pre & D & F). exists pre. split; [exact D|]. revert F. apply Forall_impl. intros d. now apply shows_after.
      - revert I2. apply Forall_impl. intros d. now apply shows_after. }
    specialize (I2 s t IN). destruct t as [[|g fs]|g fs|[|d ds]|r]; cbn [estep people_now] in *.
    + apply G; [apply asked_refl|]. exists []. split; [reflexivity|constructor].
    + apply G; [apply asked_refl|]. destruct (holds_value g s e1); exact I.
    + apply G; [|exact I]. repeat split; auto.
    + apply G; [apply asked_refl|]. destruct I2 as (pre & D & F). cbn [people_now]. rewrite D, app_nil_r. exact F.
    + destruct I2 as (pre & D & F).
      destruct (deed_moves (map fst l) s e1 d IS) as [M1 M2]; [rewrite D; apply in_app_iff; right; now left|rewrite D in KS; apply Forall_app in KS as [_ KS]; now inversion KS|].
      destruct (do_deed d e1) as [[e2 n] r]. cbn [fst snd] in *. apply G; [exact M1|]. destruct r as [[]|x|]; cbn [people_now]; auto.
      exists (pre ++ [d]). split; [now rewrite <- app_assoc|]. apply Forall_app. split; [|constructor; [now apply M2|constructor]].
      revert F. apply Forall_impl. intros d'. now apply shows_after.
    + apply G; [apply asked_refl|]. exact I2.
Qed.

(** If nobody is to be removed: the status and the role of everybody, and the organizer, are at
    every moment the old ones or ones that an editor asks for; and once a call has returned, every
    person that it names has a status and a role, and the event an organizer, that one of the
    editors asks for. *)
Theorem C175_participants e l ks : (forall x, In x l -> keeps_all (fst x)) ->
  let '(e1, w) := edits e l ks in
  ((forall i, dget (e_state e1) i = dget (e_state e) i \/ state_asked (map fst l) e1 i)
   /\ (forall i, dget (e_role e1) i = dget (e_role e) i \/ role_asked (map fst l) e1 i)
   /\ (e_organizer e1 = e_organizer e \/ organizer_asked (map fst l) e1))
  /\ forall s, In (s, EOver (Ok tt)) w ->
     (forall i st, asks_status s i st -> state_asked (map fst l) e1 i)
     /\ (forall i ro, asks_role s i ro -> role_asked (map fst l) e1 i)
     /\ organizer_asked (map fst l) e1.
Proof.
  intros K. pose proof (edits_shows e l ks K) as H. destruct (edits e l ks) as [e1 w]. destruct H as [H1 H2]. split; [exact H1|].
  intros s X. specialize (H2 s _ X). cbn [people_now] in H2. rewrite Forall_forall in H2. split; [|split].
  - intros i st A. apply deeds_status in A. exact (H2 _ A).
  - intros i ro A. apply deeds_role in A. exact (H2 _ A).
  - exact (H2 _ (proj2 (deeds_organizer s _) eq_refl)).
Qed.
Print Assumptions C175_participants.

(** If nobody is to be removed and every participant has a role before, then so when all the
    calls have returned. *)
Theorem C175_roles e l ks : (forall x, In x l -> keeps_all (fst x)) -> (forall i, dget (e_state e) i <> None -> dget (e_role e) i <> None) ->
  let '(e1, w) := edits e l ks in
  (forall x, In x w -> snd x = EOver (Ok tt)) -> forall i, dget (e_state e1) i <> None -> dget (e_role e1) i <> None.
Proof.
  intros K R. pose proof (C175_participants e l ks K) as H. pose proof (edits_specs e l ks) as SP. destruct (edits e l ks) as [e1 w]. cbn [snd] in SP.
  destruct H as [(H1 & H2 & _) H3]. intros A i N.
  assert (RA : role_asked (map fst l) e1 i -> dget (e_role e1) i <> None) by (intros (s & ro & _ & _ & E); congruence).
  destruct (H2 i) as [E2|X]; [|auto]. destruct (H1 i) as [E1|(s & st & IS & AS & _)]; [rewrite E2; apply R; congruence|].
  apply RA. rewrite <- SP in IS. apply in_map_iff in IS as ([s' t] & E & X). cbn in E. subst s'. pose proof (A _ X) as T. cbn in T. subst t.
  assert (exists ro, asks_role s i ro) as (ro & AR).
  { destruct AS as [[O _]|(ro & I')]; [exists "REQ-PARTICIPANT"%string; left; auto|exists ro; right; eauto]. }
  exact (proj1 (proj2 (H3 s X)) i ro AR).
Qed.
Print Assumptions C175_roles.

(** ** how an editor ends *)
Fixpoint run_deeds (l : list people_deed) (e : event) : mut :=
  match l with [] => (e, [], Ok tt) | d :: r => mbind (do_deed d e) (run_deeds r) end.

Lemma mbind_mbind m f g : mbind (mbind m f) g = mbind m (fun e => mbind (f e) g).
Proof.
  destruct m as [[e n] [[]|x|]]; cbn [mbind]; [|reflexivity..]. destruct (f e) as [[e1 n1] [[]|x|]]; cbn [mbind]; [|reflexivity..].
  destruct (g e1) as [[e2 n2] r2]. now rewrite app_assoc.
Qed.
Lemma mbind_ext m f g : (forall e, f e = g e) -> mbind m f = mbind m g.
Proof. intros H. destruct m as [[e n] [[]|x|]]; cbn; [|reflexivity..]. now rewrite H. Qed.
Lemma run_app a b e : run_deeds (a ++ b) e = mbind (run_deeds a e) (run_deeds b).
Proof.
  revert e. induction a as [|d a IH]; intros e; cbn [run_deeds app].
  - cbn. destruct (run_deeds b e) as [[e1 n1] r1]. reflexivity.
  - rewrite mbind_mbind. apply mbind_ext. exact IH.
Qed.
Lemma set_runs s e : set_on_object s e = run_deeds (deeds s) (set_attrs s e).
Proof.
  unfold set_on_object, deeds. rewrite run_app.
  assert (T : forall r e, set_attendees e r = run_deeds (flat_map (fun x => [DRole (fst (fst x)) (snd (fst x)); DStatus (fst (fst x)) (snd x)]) r) e).
  { induction r as [|[[a ro] st] r IH]; intros e0; [reflexivity|]. cbn [set_attendees flat_map app run_deeds fst snd do_deed]. rewrite mbind_mbind.
    apply mbind_ext. intros e1. apply mbind_ext. exact IH. }
  cbv zeta. destruct (s_organizer s) as [i|].
  - cbn [run_deeds do_deed]. rewrite !mbind_mbind. apply mbind_ext. intros e1. rewrite !mbind_mbind. apply mbind_ext. intros e2. cbn [mbind app]. rewrite T. reflexivity.
  - cbn [run_deeds do_deed mbind app]. now rewrite T.
Qed.

Lemma deed_outcome d e e' : keeping d -> snd (do_deed d e) = snd (do_deed d e').
Proof.
  destruct d as [a [st|]|a ro|o]; cbn [do_deed keeping]; intros K; [|contradiction| |reflexivity].
  - unfold set_status_raw. destruct (attendee_id a); reflexivity.
  - unfold set_role. destruct (str_in ro roles); [|reflexivity]. destruct (attendee_id a); reflexivity.
Qed.
Lemma snd_mbind m f : snd (mbind m f) = match snd m with Ok _ => snd (f (fst (fst m))) | x => x end.
Proof. destruct m as [[e n] [[]|x|]]; cbn; [|reflexivity..]. destruct (f e) as [[e1 n1] r1]. reflexivity. Qed.
Lemma fst_mbind m f : fst (fst (mbind m f)) = match snd m with Ok _ => fst (fst (f (fst (fst m)))) | _ => fst (fst m) end.
Proof. destruct m as [[e n] [[]|x|]]; cbn; [|reflexivity..]. destruct (f e) as [[e1 n1] r1]. reflexivity. Qed.
Lemma run_outcome l e e' : Forall keeping l -> snd (run_deeds l e) = snd (run_deeds l e').
Proof.
  intros K. revert e e'. induction K as [|d l D K IH]; intros e e'; [reflexivity|]. cbn [run_deeds]. rewrite !snd_mbind, (deed_outcome d e e' D).
  destruct (snd (do_deed d e')); [apply IH|reflexivity..].
Qed.

Definition ends_as (s : spec) (t : editor) : Prop :=
  match t with
  | EPeople l => exists pre, deeds s = pre ++ l /\ forall e, snd (run_deeds pre e) = Ok tt
  | EOver r => forall e, snd (run_deeds (deeds s) e) = r
  | _ => True
  end.
Lemma step_ends s e t : Forall keeping (deeds s) -> ends_as s t -> ends_as s (snd (estep s e t)).
Proof.
  intros K H. destruct t as [[|g fs]|g fs|[|d ds]|r]; cbn [estep snd]; try exact I.
  - exists []. split; reflexivity.
  - destruct (holds_value g s e); exact I.
  - destruct H as (pre & D & H). rewrite app_nil_r in D. cbn. intros e'. rewrite D. apply H.
  - destruct H as (pre & D & H). rewrite D in K. apply Forall_app in K as [_ K]. inversion K as [|? ? KD _]; subst.
    assert (O : forall e', snd (run_deeds (pre ++ [d]) e') = snd (do_deed d e)).
    { intros e'. rewrite run_app, snd_mbind, H. cbn [run_deeds]. rewrite snd_mbind. rewrite (deed_outcome d _ e KD). destruct (snd (do_deed d e)) as [[]|x|]; reflexivity. }
    destruct (do_deed d e) as [[e2 n] r]. cbn [snd] in O. destruct r as [[]|x|]; cbn [ends_as].
    + exists (pre ++ [d]). split; [now rewrite <- app_assoc|exact O].
    + intros e'. rewrite D. change (d :: ds) with ([d] ++ ds). rewrite app_assoc, run_app, snd_mbind, O. reflexivity.
    + intros e'. rewrite D. change (d :: ds) with ([d] ++ ds). rewrite app_assoc, run_app, snd_mbind, O. reflexivity.
  - exact H.
Qed.

Definition turns_left (s : spec) (t : editor) : nat :=
  match t with
  | ELook fs => 2 * List.length fs + List.length (deeds s) + 2
  | EPut _ fs => 2 * List.length fs + List.length (deeds s) + 3
  | EPeople l => List.length l + 1
  | EOver _ => 0
  end.
Lemma step_left s e t : (turns_left s (snd (estep s e t)) <= turns_left s t - 1)%nat.
Proof.
  destruct t as [[|g fs]|g fs|[|d ds]|r]; cbn [estep snd turns_left List.length]; try lia.
  - destruct (holds_value g s e); cbn [turns_left List.length]; lia.
  - destruct (do_deed d e) as [[e2 n] r]. destruct r; cbn [snd turns_left List.length]; lia.
Qed.

Lemma nth_replace {A} k (l : list A) j y : nth_error (replace_nth k l y) j = if Nat.eqb j k then match nth_error l j with Some _ => Some y | None => None end else nth_error l j.
Proof.
  revert k j. induction l as [|a l IH]; intros [|k] [|j]; cbn; try reflexivity; [destruct (Nat.eqb j k); reflexivity|apply IH].
Qed.

Lemma edits_left e l ks k s fs : nth_error l k = Some (s, fs) -> exists t, nth_error (snd (edits e l ks)) k = Some (s, t)
  /\ (turns_left s t <= 2 * List.length fs + List.length (deeds s) + 2 - count_occ Nat.eq_dec ks k)%nat.
Proof.
  intros H. induction ks as [|j ks IH] using rev_ind.
  - exists (ELook fs). cbn. rewrite nth_error_map, H. cbn. split; [reflexivity|lia].
  - rewrite edits_snoc. destruct IH as (t & E & L). destruct (edits e l ks) as [e1 w]. cbn [snd] in E. rewrite count_occ_app. cbn [count_occ]. unfold ego.
    destruct (Nat.eq_dec j k) as [->|N].
    + rewrite E. pose proof (step_left s e1 t) as SL. destruct (estep s e1 t) as [e2 t2]. cbn [snd] in *. exists t2. rewrite nth_replace, Nat.eqb_refl, E. split; [reflexivity|lia].
    + exists t. split; [|lia]. destruct (nth_error w j) as [[s' t']|]; [|exact E]. destruct (estep s' e1 t') as [e2 t2]. cbn [snd]. rewrite nth_replace.
      destruct (Nat.eqb_spec k j); [congruence|exact E].
Qed.

Lemma edits_ends e l ks : forall s t, In (s, t) (snd (edits e l ks)) -> keeps_all s -> ends_as s t.
Proof.
  induction ks as [|j ks IH] using rev_ind.
  - cbn. intros s t H _. apply in_map_iff in H as (x & E & _). injection E as _ <-. exact I.
  - rewrite edits_snoc. destruct (edits e l ks) as [e1 w]. cbn [snd] in IH. unfold ego. destruct (nth_error w j) as [[s' t']|] eqn:E; [|exact IH].
    pose proof (step_ends s' e1 t') as SE. destruct (estep s' e1 t') as [e2 t2]. cbn [snd] in *. intros s t H K. apply in_replace in H as [H|H]; [now apply IH|].
    injection H as -> ->. apply SE; [now apply deeds_keep|]. apply IH; [now apply nth_error_In in E|exact K].
Qed.

(** Every editor ends after a bounded number of its own actions, whatever the others do; if nobody
    is to be removed by its specification, it returns or raises what it would return or raise
    alone, on any event. *)
Theorem C175_ends e l k s fs : nth_error l k = Some (s, fs) -> exists n, forall ks, (n <= count_occ Nat.eq_dec ks k)%nat ->
  exists r, nth_error (snd (edits e l ks)) k = Some (s, EOver r) /\ (keeps_all s -> forall e', r = snd (set_on_object s e')).
Proof.
  intros H. exists (2 * List.length fs + List.length (deeds s) + 2)%nat. intros ks L. destruct (edits_left e l ks k s fs H) as (t & E & B).
  destruct t as [fs'|g fs'|ds|r]; cbn [turns_left] in B; [lia..|]. exists r. split; [exact E|]. intros K e'. rewrite set_runs.
  symmetry. apply (edits_ends e l ks s (EOver r)); [now apply nth_error_In in E|exact K].
Qed.
Print Assumptions C175_ends.

(** ** alone *)
Lemma people_refl e : people_same e e.
Proof. repeat split. Qed.
Lemma deed_people d e e' : people_same e e' -> people_same (fst (fst (do_deed d e))) (fst (fst (do_deed d e'))) /\ snd (do_deed d e) = snd (do_deed d e').
Proof.
  intros (O & S & R). destruct d as [a st|a ro|o]; cbn [do_deed].
  - unfold set_status_raw. destruct (attendee_id a) as [i| |]; [|repeat split; assumption..]. destruct st as [v|]; [rewrite S; repeat split; assumption|].
    rewrite S. destruct (ddel (e_state e') i); [|repeat split; assumption..]. cbn [with_state e_role]. rewrite R. destruct (ddel (e_role e') i); repeat split; cbn; assumption.
  - unfold set_role. destruct (str_in ro roles); [|repeat split; assumption]. destruct (attendee_id a); rewrite ?R; repeat split; assumption.
  - repeat split; assumption.
Qed.

Definition alone_at (s : spec) (e e1 : event) (t : editor) : Prop :=
  match t with
  | EPeople l => exists pre, deeds s = pre ++ l /\ people_same e1 (fst (fst (run_deeds pre (set_attrs s e)))) /\ snd (run_deeds pre (set_attrs s e)) = Ok tt
  | EOver r => people_same e1 (fst (fst (set_on_object s e))) /\ r = snd (set_on_object s e)
  | _ => people_same e1 e
  end.
Lemma step_alone s e e1 t : alone_at s e e1 t -> alone_at s e (fst (estep s e1 t)) (snd (estep s e1 t)).
Proof.
  intros H. destruct t as [[|g fs]|g fs|[|d ds]|r]; cbn [estep fst snd].
  - exists []. split; [reflexivity|]. split; [exact H|reflexivity].
  - destruct (holds_value g s e1); exact H.
  - exact H.
  - destruct H as (pre & D & P & R). rewrite app_nil_r in D. cbn. rewrite set_runs, D. auto.
  - destruct H as (pre & D & P & R). destruct (deed_people d _ _ P) as [DP DR].
    assert (O : snd (run_deeds (pre ++ [d]) (set_attrs s e)) = snd (do_deed d e1)
      /\ people_same (fst (fst (do_deed d e1))) (fst (fst (run_deeds (pre ++ [d]) (set_attrs s e))))).
    { rewrite run_app, snd_mbind, fst_mbind, R. cbn [run_deeds]. rewrite snd_mbind, fst_mbind, <- DR. destruct (snd (do_deed d e1)) as [[]|x|]; cbn [fst snd]; auto. }
    destruct O as [O1 O2]. assert (DD : deeds s = (pre ++ [d]) ++ ds) by (rewrite <- app_assoc; exact D).
    destruct (do_deed d e1) as [[e2 n] r]. cbn [fst snd] in *. destruct r as [[]|x|]; cbn [alone_at fst snd].
    + exists (pre ++ [d]). auto.
    + rewrite set_runs, DD, run_app, snd_mbind, fst_mbind, O1. auto.
    + rewrite set_runs, DD, run_app, snd_mbind, fst_mbind, O1. auto.
  - exact H.
Qed.

(** An editor alone does what setOnObject does, whatever the order of the attributes. *)
Theorem C175_alone e s fs : Permutation fs all_fields -> exists n, forall m, (n <= m)%nat ->
  exists e1, edits e [(s, fs)] (repeat 0%nat m) = (e1, [(s, EOver (snd (set_on_object s e)))])
  /\ (forall f, has_value f s e1) /\ people_same e1 (fst (fst (set_on_object s e))).
Proof.
  intros P. destruct (C175_ends e [(s, fs)] 0 s fs eq_refl) as (n & N). exists n. intros m M.
  assert (CO : (n <= count_occ Nat.eq_dec (repeat 0 m) 0)%nat) by (rewrite count_occ_repeat_eq; auto).
  destruct (N _ CO) as (r & E & _).
  assert (A : forall m, exists e1 t, edits e [(s, fs)] (repeat 0%nat m) = (e1, [(s, t)]) /\ alone_at s e e1 t).
  { clear. induction m as [|m IH]; [exists e, (ELook fs); split; [reflexivity|apply people_refl]|].
    cbn [repeat]. rewrite repeat_cons, edits_snoc. destruct IH as (e1 & t & E & H). rewrite E. cbn [ego nth_error].
    apply step_alone in H. destruct (estep s e1 t) as [e2 t2]. exists e2, t2. split; [reflexivity|exact H]. }
  destruct (A m) as (e1 & t & E1 & H). rewrite E1 in E. cbn in E. injection E as ->. destruct H as [H1 H2]. exists e1. split; [rewrite E1, H2; reflexivity|]. split; [|exact H1].
  intros f. pose proof (C175_attributes e [(s, fs)] (repeat 0%nat m)) as C. rewrite E1 in C.
  destruct C as (_ & C & _); [intros x [<-|[]]; exact P|]. destruct (C f s (EOver r) (or_introl eq_refl) I) as (s' & [<-|[]] & V). exact V.
Qed.
Print Assumptions C175_alone.

(** ** examples *)
Definition ed_spec (h d : Z) (title : string) (org : attendee) : spec :=
  mkSpec (p_at 732500 h) (Some (d * HOUR)) title ""%string ""%string "TENTATIVE"%string None false [] false "PUBLIC"%string None org [(bob, "CHAIR", Some "TENTATIVE")]%string.
Definition ed_event : event := obj (run cf0 office) 0.
Definition ed_two : list (spec * list field) := [(ed_spec 12 2 "Planning" ann, all_fields); (ed_spec 14 3 "Planning" bob, rev all_fields)]%string.
Definition ed_turns : list nat := repeat 1%nat 40 ++ [0; 0; 0]%nat ++ repeat 0%nat 40.

Example C175_case : (forall x, In x ed_two -> Permutation (snd x) all_fields) /\ (forall x, In x ed_two -> keeps_all (fst x))
  /\ e_organizer ed_event = Some "ann"%string /\ dget (e_state ed_event) "ann" <> None
  /\ snd (edits ed_event ed_two ed_turns) = [(ed_spec 12 2 "Planning" ann, EOver (Ok tt)); (ed_spec 14 3 "Planning" bob, EOver (Ok tt))]%string
  /\ e_title (fst (edits ed_event ed_two ed_turns)) = "Planning"%string.
Proof.
  split; [intros x [<-|[<-|[]]]; cbn [snd]; [apply Permutation_refl|apply Permutation_sym, Permutation_rev]|].
  split; [intros x [<-|[<-|[]]]; repeat constructor; discriminate|]. split; [vm_compute; reflexivity|]. split; [vm_compute; discriminate|]. split; vm_compute; reflexivity.
Qed.

(** Both editors of the case have returned, every participant had a role, and both name bob. *)
Example C175_people_case : (forall x, In x (snd (edits ed_event ed_two ed_turns)) -> snd x = EOver (Ok tt))
  /\ map fst (e_state ed_event) = ["ann"]%string /\ (forall i, dget (e_state ed_event) i <> None -> dget (e_role ed_event) i <> None)
  /\ asks_status (ed_spec 12 2 "Planning" ann) "bob" "TENTATIVE" /\ asks_status (ed_spec 14 3 "Planning" bob) "bob" "ACCEPTED"
  /\ dget (e_state (fst (edits ed_event ed_two ed_turns))) "bob" = Some "TENTATIVE"%string
  /\ dget (e_role (fst (edits ed_event ed_two ed_turns))) "bob" = Some "CHAIR"%string.
Proof.
  split; [vm_compute edits; cbn [snd]; intros x [<-|[<-|[]]]; reflexivity|]. split; [vm_compute; reflexivity|].
  split; [intros i; vm_compute e_state; vm_compute e_role; cbn [dget]; repeat destruct (String.eqb _ _); congruence|].
  split; [right; exists "CHAIR"%string; now left|]. split; [left; auto|]. split; vm_compute; reflexivity.
Qed.

(** ** refuted *)
(** Two people move a meeting at the same time, one to 12-14, the other to 14-17, and both calls
    return: it can end up at 12-15, which neither wanted. *)
Theorem C175_either_refuted : exists e s1 s2 ks, let '(e1, w) := edits e [(s1, all_fields); (s2, all_fields)] ks in
  w = [(s1, EOver (Ok tt)); (s2, EOver (Ok tt))]
  /\ e_dtstart e1 = s_dtstart s1 /\ e_duration e1 = s_duration s2 /\ e_dtstart e1 <> s_dtstart s2 /\ e_duration e1 <> s_duration s1
  /\ (exists cf s r, reachable cf s /\ In r (map snd (sys_store s)) /\ e = obj s r).
Proof.
  exists ed_event, (ed_spec 12 2 "Planning" ann)%string, (ed_spec 14 3 "Planning" ann)%string, ([1; 1; 0; 0; 0; 0; 1; 1]%nat ++ repeat 0%nat 40 ++ repeat 1%nat 40).
  vm_compute edits. split; [reflexivity|]. split; [reflexivity|]. split; [reflexivity|]. split; [discriminate|]. split; [discriminate|].
  exists cf0, (run cf0 office), 0%nat. split; [apply run_reachable|]. split; [vm_compute; auto|]. vm_compute. reflexivity.
Qed.
Print Assumptions C175_either_refuted.

(** One person keeps bob in the meeting, another takes bob out at the same time.  Both calls
    return, and bob takes part without a role: the first sets bob's role, the second deletes role
    and status, the first sets the status.  Whichever comes first, calls that do not overlap leave
    every participant with a role. *)
Definition ed_out : spec := mkSpec (p_at 732500 12) (Some (2 * HOUR)) "Planning"%string ""%string ""%string "TENTATIVE"%string None false [] false "PUBLIC"%string None ann [(bob, "CHAIR", None)]%string.
Theorem C175_roles_refuted : exists e s1 s2 ks, let '(e1, w) := edits e [(s1, all_fields); (s2, all_fields)] ks in
  w = [(s1, EOver (Ok tt)); (s2, EOver (Ok tt))]
  /\ (forall i, dget (e_state e) i <> None -> dget (e_role e) i <> None)
  /\ dget (e_state e1) "bob" = Some "TENTATIVE"%string /\ dget (e_role e1) "bob" = None
  /\ (let '(e2, _, r2) := mbind (set_on_object s1 e) (set_on_object s2) in
      r2 = Ok tt /\ forall i, dget (e_state e2) i <> None -> dget (e_role e2) i <> None)
  /\ (let '(e3, _, r3) := mbind (set_on_object s2 e) (set_on_object s1) in
      r3 = Ok tt /\ forall i, dget (e_state e3) i <> None -> dget (e_role e3) i <> None)
  /\ (exists cf s r, reachable cf s /\ In r (map snd (sys_store s)) /\ e = obj s r).
Proof.
  exists (obj (run cf0 office) 1), (ed_spec 12 2 "Planning" ann)%string, ed_out, (repeat 0%nat 20 ++ repeat 1%nat 40 ++ repeat 0%nat 10).
  vm_compute edits. split; [reflexivity|].
  assert (Q : forall i, dget (e_state (obj (run cf0 office) 1)) i <> None -> dget (e_role (obj (run cf0 office) 1)) i <> None) by (intros i; vm_compute e_state; vm_compute e_role; cbn [dget]; repeat destruct (String.eqb _ _); congruence).
  split; [exact Q|]. split; [reflexivity|]. split; [reflexivity|].
  split; [vm_compute mbind; split; [reflexivity|]; intros i; cbn [e_state e_role dget]; repeat destruct (String.eqb _ _); congruence|].
  split; [vm_compute mbind; split; [reflexivity|]; intros i; cbn [e_state e_role dget]; repeat destruct (String.eqb _ _); congruence|].
  exists cf0, (run cf0 office), 1%nat. split; [apply run_reachable|]. split; [vm_compute; auto|]. vm_compute. reflexivity.
Qed.
Print Assumptions C175_roles_refuted.
