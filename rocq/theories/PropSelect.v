(** Criteria select from the answer without criteria, as lists (C104). *)
From Verif Require Import Base PyDate Recurrent CalTime TimeProofs Event Storage QueryProofs PropQuery PropMeta.

Lemma filter_rconcat {A B} (f : A -> res (list B)) (h : A -> bool) (g : B -> bool) l : forall out,
  (forall x ys y, f x = Ok ys -> In y ys -> g y = h x) -> rconcat_map f l = Ok out ->
  rconcat_map f (filter h l) = Ok (filter g out).
Proof.
  induction l as [|x l IH]; intros out G E; cbn [rconcat_map] in E; [injection E as <-; reflexivity|].
  destruct (f x) as [ys| |] eqn:Fx; try discriminate. cbn [rbind] in E.
  destruct (rconcat_map f l) as [r| |]; try discriminate. cbn [rbind] in E. injection E as <-.
  specialize (IH r G eq_refl). rewrite filter_app. cbn [filter]. destruct (h x) eqn:Hx.
  - cbn [rconcat_map]. rewrite Fx. cbn [rbind]. rewrite IH. cbn [rbind]. do 2 f_equal.
    assert (X : forall y, In y ys -> g y = true) by (intros y Y; rewrite (G x ys y Fx Y); exact Hx).
    clear -X. induction ys as [|y ys IHy]; [reflexivity|]. cbn [filter]. rewrite (X y (or_introl eq_refl)).
    rewrite <- IHy; [reflexivity|]. intros z Z. apply X. now right.
  - rewrite IH. f_equal.
    assert (X : forall y, In y ys -> g y = false) by (intros y Y; rewrite (G x ys y Fx Y); exact Hx).
    replace (filter g ys) with (@nil B); [reflexivity|]. clear -X.
    induction ys as [|y ys IHy]; [reflexivity|]. cbn [filter]. rewrite (X y (or_introl eq_refl)). apply IHy. intros z Z. apply X. now right.
Qed.

Lemma filter_rfilter {A} (f : A -> res bool) (h : A -> bool) l : forall out, rfilter f l = Ok out ->
  rfilter f (filter h l) = Ok (filter h out).
Proof.
  induction l as [|x l IH]; intros out E; cbn [rfilter] in E; [injection E as <-; reflexivity|].
  destruct (f x) as [b| |] eqn:Fx; try discriminate. cbn [rbind] in E.
  destruct (rfilter f l) as [r| |]; try discriminate. cbn [rbind] in E. injection E as <-.
  specialize (IH r eq_refl). destruct b; cbn [filter]; destruct (h x); cbn [rfilter]; rewrite ?Fx; cbn [rbind]; rewrite IH; reflexivity.
Qed.

Lemma match_none e : match_criteria null_criteria e = Ok true.
Proof. reflexivity. Qed.

Lemma matching_none evs : matching_events evs None = Ok evs.
Proof.
  unfold matching_events. induction evs as [|e evs IH]; [reflexivity|]. cbn [rfilter].
  rewrite match_none. cbn [rbind]. rewrite IH. reflexivity.
Qed.

Definition meets (c : criteria) (e : event) : bool := match match_criteria c e with Ok b => b | _ => false end.

Lemma meets_spec c e : crit_ok c -> (meets c e = true <-> satisfies c e).
Proof. intros C. unfold meets. destruct (match_total c e C) as [b B]. rewrite B. now apply match_spec. Qed.

Lemma matching_some evs c : crit_ok c -> matching_events evs (Some c) = Ok (filter (meets c) evs).
Proof.
  intros C. unfold matching_events. destruct (rfilter_ok (match_criteria c) evs) as [out E]; [intros x _; now apply match_total|].
  rewrite E. f_equal. exact (rfilter_is_filter _ _ _ E).
Qed.

Lemma expand_original F e p out : expand F e p = Ok out -> forall o, In o out -> o_original o = e.
Proof.
  unfold expand. destruct (e_recurrence e) as [r|].
  - destruct (snd p); try discriminate. match goal with |- context [apply ?x ?y ?z ?t] => destruct (apply x y z t) as [ds f] end. destruct (expand_dates e p ds) as [l| |] eqn:X; try discriminate. cbn [rbind].
    destruct f; try discriminate. intros E o. injection E as <-. unfold expand_dates in X.
    intros O. apply (rconcat_in _ _ _ X) in O. destruct O as (d & ys & _ & Y & O).
    destruct (in_period _ _ _) as [[]| |]; try discriminate; cbn [rbind] in Y; injection Y as <-; [destruct O as [<-|[]]; reflexivity|destruct O].
  - destruct (in_period _ _ _) as [[]| |]; try discriminate; cbn [rbind]; intros E o; injection E as <-; [intros [<-|[]]; reflexivity|intros []].
Qed.

Lemma emit_original {A} (orig : A) p rb : forall e out, emit_segments orig p e rb = Ok out -> forall o, In o out -> o_original o = orig.
Proof.
  induction rb as [|s rb IH]; intros e out E o O; cbn [emit_segments] in E; [injection E as <-; destruct O|].
  destruct (in_period _ _ _) as [b| |]; try discriminate. cbn [rbind] in E.
  destruct (emit_segments orig p s rb) as [rest| |] eqn:R; try discriminate. cbn [rbind] in E. injection E as <-.
  destruct b; [destruct O as [<-|O]; [reflexivity|]|]; exact (IH _ _ R _ O).
Qed.

Lemma segment_original {A} a b (x : occurrence A) out : segment_one a b x = Ok out -> forall o, In o out -> o_original o = o_original x.
Proof.
  unfold segment_one. destruct (end_of _ _) as [y| |]; try discriminate. cbn [rbind].
  destruct (day_borders _ _ _ _) as [bs| |]; try discriminate. cbn [rbind]. apply emit_original.
Qed.

(** If a query without criteria is answered, so is the query with criteria (unless
    they name None as an attendee), and the answer is the other one without the items that do
    not meet the criteria: as often as there, and in the same order. *)
Theorem C104_selected_events evs p c l0 : crit_ok c -> get_events evs p None = Ok l0 ->
  exists f, (forall e, f e = true <-> satisfies c e) /\ get_events evs p (Some c) = Ok (filter f l0).
Proof.
  intros C. unfold get_events. rewrite matching_none, (matching_some evs c C). cbn [rbind]. intros E.
  exists (meets c). split; [intros e; now apply meets_spec|]. now apply filter_rfilter.
Qed.
Print Assumptions C104_selected_events.

Theorem C104_selected_occurrences F evs p c l0 : crit_ok c -> get_occurrences F evs p None = Ok l0 ->
  exists f, (forall e, f e = true <-> satisfies c e)
    /\ get_occurrences F evs p (Some c) = Ok (filter (fun o => f (o_original o)) l0).
Proof.
  intros C. unfold get_occurrences. destruct (assert_bounded p) as [[a b]| |]; try discriminate. cbn [rbind].
  rewrite matching_none, (matching_some evs c C). cbn [rbind]. intros E.
  exists (meets c). split; [intros e; now apply meets_spec|]. apply filter_rconcat; [|exact E].
  intros e ys o Y O. now rewrite (expand_original _ _ _ _ Y o O).
Qed.
Print Assumptions C104_selected_occurrences.

(** the pieces within days likewise *)
Theorem C104_selected_segments F evs p c l0 : crit_ok c -> get_occurrences_segmented F evs p None = Ok l0 ->
  exists f, (forall e, f e = true <-> satisfies c e)
    /\ get_occurrences_segmented F evs p (Some c) = Ok (filter (fun o => f (o_original o)) l0).
Proof.
  intros C. unfold get_occurrences_segmented.
  destruct (get_occurrences F evs p None) as [l| |] eqn:G; try discriminate. cbn [rbind].
  destruct (C104_selected_occurrences F evs p c l C G) as (f & Hf & ->). cbn [rbind].
  destruct (assert_bounded p) as [[a b]| |]; try discriminate. cbn [rbind]. intros E.
  exists f. split; [exact Hf|]. unfold segment_occurrences in *. apply filter_rconcat; [|exact E].
  intros x ys o Y O. now rewrite (segment_original _ _ _ _ Y o O).
Qed.
Print Assumptions C104_selected_segments.

(** two days of a storage with three events: alice takes part in the first and the
    third, which runs over midnight; the daily one in between is left out *)
Example C104_selected_case :
  let c := mkCrit (Some [alice]) None None None None in
  let p := (Some (at_ 0 0), Some (at_ 3 0)) in
  crit_ok c
  /\ get_events store p None = Ok [ev1; ev2; ev3] /\ get_events store p (Some c) = Ok [ev1; ev3]
  /\ exists o1 o2 o3 o4 o5 o6 l,
       get_occurrences_segmented 20 store p None = Ok [o1; o2; o3; o4; o5; o6]
       /\ get_occurrences_segmented 20 store p (Some c) = Ok [o1; o5; o6]
       /\ get_occurrences 20 store p None = Ok [o1; o2; o3; o4; l] /\ get_occurrences 20 store p (Some c) = Ok [o1; l]
       /\ (o_dtstart o5, o_dtstart o6, o_dtstart l) = (at_ 2 0, at_ 1 22, at_ 1 22).
Proof.
  cbv zeta. split; [split; [discriminate|intros l E; injection E as <-; intros [X|[]]; discriminate X]|].
  split; [vm_compute; reflexivity|]. split; [vm_compute; reflexivity|].
  do 7 eexists. do 4 (split; [vm_compute; reflexivity|]). vm_compute. reflexivity.
Qed.
