(** Property theorems C127: rules whose attributes were assigned. *)
From Verif Require Import Base PyDate Recurrent RuleAttr RecurMisc PropRecur.

(** ** Specification *)
Definition compares_types (k : kind) : Prop := k = KWeekly \/ k = KMonthly.

Lemma seq_eqb_iff {A} (eqb : A -> A -> bool) a b :
  seq_eqb eqb a b = true <-> fst a = fst b /\ list_eqb eqb (snd a) (snd b) = true.
Proof. unfold seq_eqb. rewrite Bool.andb_true_iff, Bool.eqb_true_iff. reflexivity. Qed.

(** Two rule objects are equal exactly if their values are and, for weekly and monthly rules, the exceptions
    are both tuples or both lists, and for weekly rules so are the weekdays. *)
Theorem C127_equal_iff a b : obj_eq a b = true <->
  rule_eq (o_rule a) (o_rule b) = true
  /\ (compares_types (r_kind (o_rule a)) -> o_exc_list a = o_exc_list b)
  /\ (r_kind (o_rule a) = KWeekly -> o_wd_list a = o_wd_list b).
Proof.
  unfold compares_types, obj_eq, compared, rule_eq, tuple_for_comparison, rtuple_eqb.
  destruct a as [[k i c u e w m] x y], b as [[k' i' c' u' e' w' m'] x' y'].
  cbn [o_rule o_exc_list o_wd_list r_kind r_interval r_count r_until r_exceptions r_weekdays r_monthly].
  repeat rewrite Bool.andb_true_iff.
  destruct k, k'; cbn [kind_eqb oextra_eqb extra_eqb]; repeat rewrite seq_eqb_iff; cbn [fst snd];
    (split; [intros H; decompose [and] H; clear H; try discriminate; repeat split; auto; try (intros [?|?]; discriminate); try discriminate; intros _; assumption
            |intros H; decompose [and] H; clear H; try discriminate; repeat split; auto]).
Qed.
Print Assumptions C127_equal_iff.

(** What the constructors and replace make are equal exactly if their values are, and
    can be hashed: this is the equality used everywhere else. *)
Theorem C127_constructed k i c u e w m o k' i' c' u' e' w' m' o' :
  construct k i c u e w m = Ok o -> construct k' i' c' u' e' w' m' = Ok o' ->
  obj_eq o o' = rule_eq (o_rule o) (o_rule o') /\ forall h, exists n, obj_hash h o = Ok n.
Proof.
  unfold construct. intros H H'. destruct (mk_rule k i c u e w m) as [r|x|] eqn:E; cbn [rbind] in H; try discriminate. injection H as <-.
  destruct (mk_rule k' i' c' u' e' w' m') as [r'|x|] eqn:E'; cbn [rbind] in H'; try discriminate. injection H' as <-.
  split.
  - apply Bool.eq_true_iff_eq. rewrite C127_equal_iff. cbn [o_exc_list o_wd_list o_rule]. intuition.
  - intros h. unfold obj_hash, compared. cbn [o_rule o_exc_list o_wd_list]. destruct (r_kind r); cbn [fst]; eauto.
Qed.
Print Assumptions C127_constructed.

(** Equal rules hash alike, and if one cannot be hashed neither can the other. *)
Theorem C127_hash h a b : obj_eq a b = true -> obj_hash h a = obj_hash h b.
Proof.
  intros H. assert (E : compared a = compared b); [|unfold obj_hash; now rewrite E].
  apply C127_equal_iff in H as (R & X & W). unfold compares_types in X. apply C11_equality_is_tuple_equality in R.
  unfold tuple_for_comparison in R. unfold compared. injection R as RK RI RC RU RE RX. rewrite RK, RI, RC, RU, RE. rewrite RK in X, W.
  destruct (r_kind (o_rule a)) eqn:KA, (r_kind (o_rule b)) eqn:KB; try discriminate; cbn in *; try (rewrite X by auto); try (rewrite W by auto); congruence.
Qed.
Print Assumptions C127_hash.

(** A rule can be hashed exactly if none of the compared sequences is a list. *)
Theorem C127_hash_iff h o : obj_hash h o = Raise TypeError <->
  compares_types (r_kind (o_rule o)) /\ o_exc_list o = true \/ r_kind (o_rule o) = KWeekly /\ o_wd_list o = true.
Proof.
  unfold obj_hash, compared, compares_types. destruct o as [[k i c u e w m] x y]. cbn [o_rule o_exc_list o_wd_list r_kind].
  destruct k, x, y; cbn [fst]; split; intros H; try discriminate; try reflexivity; intuition discriminate.
Qed.
Print Assumptions C127_hash_iff.

(** Equal rules give the same dates; whether a sequence is a list does not matter for the dates. *)
Theorem C127_dates a b F dt ed : obj_eq a b = true \/ o_rule a = o_rule b -> obj_apply F a dt ed = obj_apply F b dt ed.
Proof.
  unfold obj_apply. intros [H|H]; [|now rewrite H]. apply C127_equal_iff in H as (R & _). now apply C11_equal_rules_interchangeable.
Qed.
Print Assumptions C127_dates.

(** replace() without arguments gives a rule of the same values that can be hashed, if the values are valid. *)
Theorem C127_replace o o' : replace_obj o None None None None None None = Ok o' ->
  rule_eq (o_rule o) (o_rule o') = true /\ (forall F dt ed, obj_apply F o' dt ed = obj_apply F o dt ed)
  /\ o_exc_list o' = false /\ o_wd_list o' = false
  /\ (obj_eq o o' = true <-> ~ (exists h, obj_hash h o = Raise TypeError)).
Proof.
  intros H. unfold replace_obj, replace in H. unfold mk_rule in H. cbn [rbind] in H.
  match type of H with context [validate ?r] => set (r' := r) in * end.
  destruct (validate r') as [[]|x|]; cbn [rbind] in H; try discriminate. injection H as <-.
  assert (R : rule_eq (o_rule o) r' = true).
  { apply C11_equality_is_tuple_equality. unfold tuple_for_comparison, r'. cbn [r_kind r_interval r_count r_until r_exceptions r_weekdays r_monthly].
    now destruct (r_kind (o_rule o)). }
  split; [exact R|]. split; [intros F dt ed; symmetry; now apply C11_equal_rules_interchangeable|]. split; [reflexivity|]. split; [reflexivity|].
  rewrite C127_equal_iff. cbn [o_rule o_exc_list o_wd_list]. split.
  - intros (_ & X & W) (h & T). apply C127_hash_iff in T as [[T1 T2]|[T1 T2]]; [specialize (X T1)|specialize (W T1)]; congruence.
  - intros N. split; [exact R|]. assert (N' : forall h, obj_hash h o <> Raise TypeError) by (intros h T; apply N; now exists h).
    split; intros K; [destruct (o_exc_list o) eqn:E|destruct (o_wd_list o) eqn:E]; try reflexivity; exfalso; apply (N' (fun _ => 0)); apply C127_hash_iff; auto.
Qed.
Print Assumptions C127_replace.

(** Hence: the same weekdays assigned as a list make a rule that gives the same dates but is not equal to
    the original, and can no longer be hashed. *)
Theorem C127_list_differs : exists o, construct KWeekly 1 None None [] [0; 2] "" = Ok o
  /\ let o' := assign o (AWeekdays true [0; 2]) in
     (forall F dt ed, obj_apply F o' dt ed = obj_apply F o dt ed) /\ obj_eq o o' = false /\ (forall h, obj_hash h o' = Raise TypeError)
     /\ exists o2, replace_obj o' None None None None None None = Ok o2 /\ obj_eq o o2 = true.
Proof.
  eexists. split; [reflexivity|]. cbv zeta. split; [reflexivity|]. split; [reflexivity|]. split; [reflexivity|].
  eexists. split; reflexivity.
Qed.
Print Assumptions C127_list_differs.

(** daily rules do not mind *)
Example C127_daily : exists o, construct KDaily 2 None None [VDate 732500] [] "" = Ok o
  /\ obj_eq o (assign o (AExceptions true [VDate 732500])) = true
  /\ obj_eq o (assign o (AExceptions false [])) = false.
Proof. eexists. split; [reflexivity|]. split; reflexivity. Qed.
