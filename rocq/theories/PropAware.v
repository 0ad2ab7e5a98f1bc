(** Property theorems C153: until and exceptions with and without a time zone
    (recurrent.py 91-104, cal.py 87-124, 736-741). *)
From Verif Require Import Base PyDate Recurrent CalTime Event QueryProofs EventProofs Aware.
From Coq Require Import Permutation.

(** ** specification *)
(** the same day, clock time or moment *)
Definition same_val (a b : zval) : Prop :=
  match a, b with
  | ZDate x, ZDate y | ZNaive x, ZNaive y => x = y
  | ZAware x o, ZAware y p => x - o = y - p
  | ZOther, ZOther => True
  | _, _ => False
  end.
(** one with a zone and one without *)
Definition mixed (a b : zval) : Prop :=
  match a, b with ZNaive _, ZAware _ _ | ZAware _ _, ZNaive _ => True | _, _ => False end.
Definition on_option (R : zval -> zval -> Prop) (none : Prop) (a b : option zval) : Prop :=
  match a, b with Some x, Some y => R x y | None, None => none | _, _ => False end.

(** rules that cannot be compared: all is equal up to the first pair of datetimes of
    which only one has a zone *)
Definition incomparable (a b : zrule) : Prop :=
  z_kind a = z_kind b /\ z_interval a = z_interval b /\ z_count a = z_count b
  /\ (on_option mixed False (z_until a) (z_until b)
      \/ on_option same_val True (z_until a) (z_until b)
         /\ exists p1 x q1 p2 y q2, z_exceptions a = p1 ++ x :: q1 /\ z_exceptions b = p2 ++ y :: q2
              /\ Forall2 same_val p1 p2 /\ mixed x y).

Definition same_rule (a b : zrule) : Prop :=
  z_kind a = z_kind b /\ z_interval a = z_interval b /\ z_count a = z_count b
  /\ on_option same_val True (z_until a) (z_until b) /\ Forall2 same_val (z_exceptions a) (z_exceptions b)
  /\ (z_kind a = KWeekly -> z_weekdays a = z_weekdays b) /\ (z_kind a = KMonthly -> z_monthly a = z_monthly b).

Definition no_comparing (a b : option zrule) : Prop :=
  match a, b with Some x, Some y => incomparable x y | _, _ => False end.

(** the event shows what the specification says *)
Definition agrees (a : attr) (s : zspec) (z : zevent) : Prop :=
  let v := zs_spec s in let e := ze_event z in
  match a with
  | PDtstart => e_dtstart e = s_dtstart v
  | PDuration => e_duration e = s_duration v
  | PTitle => e_title e = s_title v
  | PDescription => e_description e = s_description v
  | PLocation => e_location e = s_location v
  | PStatus => e_status e = s_status v
  | PRecurrence => match ze_rec z, zs_rec s with Some x, Some y => same_rule x y | None, None => True | _, _ => False end
  | PAllday => e_allday e = s_allday v
  | PCategories => forall k, In k (e_categories e) <-> In k (s_categories v)
  | PTransparent => e_transparent e = s_transparent v
  | PAccess => e_access e = s_access v
  | PDocument => e_document e = s_document v
  end.

(** this attribute is as it was *)
Definition keeps (a : attr) (z z' : zevent) : Prop :=
  let e := ze_event z in let e' := ze_event z' in
  match a with
  | PDtstart => e_dtstart e' = e_dtstart e
  | PDuration => e_duration e' = e_duration e
  | PTitle => e_title e' = e_title e
  | PDescription => e_description e' = e_description e
  | PLocation => e_location e' = e_location e
  | PStatus => e_status e' = e_status e
  | PRecurrence => ze_rec z' = ze_rec z
  | PAllday => e_allday e' = e_allday e
  | PCategories => e_categories e' = e_categories e
  | PTransparent => e_transparent e' = e_transparent e
  | PAccess => e_access e' = e_access e
  | PDocument => e_document e' = e_document e
  end.

(** nobody's participation changed, nor the organizer or the id *)
Definition same_people (z z' : zevent) : Prop :=
  let e := ze_event z in let e' := ze_event z' in
  e_uid e' = e_uid e /\ e_organizer e' = e_organizer e /\ e_state e' = e_state e /\ e_role e' = e_role e.

(** the dictionary of a specification has every attribute once *)
Definition every_attribute (order : list attr) : Prop := NoDup order /\ forall a, In a order.

(** ** proofs *)
Lemma zval_eq_cases a b : (zval_eq a b = Ok true /\ same_val a b /\ ~ mixed a b)
  \/ (zval_eq a b = Ok false /\ ~ same_val a b /\ ~ mixed a b) \/ (zval_eq a b = Raise TypeError /\ ~ same_val a b /\ mixed a b).
Proof.
  destruct a as [x|x|x o|], b as [y|y|y p|]; cbn; try tauto.
  - destruct (x =? y) eqn:E; [left|right; left]; (split; [reflexivity|]); lia.
  - destruct (x =? y) eqn:E; [left|right; left]; (split; [reflexivity|]); lia.
  - destruct (x - o =? y - p) eqn:E; [left|right; left]; (split; [reflexivity|]); lia.
Qed.

Lemma zopt_eq_cases a b : (zopt_eq a b = Ok true /\ on_option same_val True a b /\ ~ on_option mixed False a b)
  \/ (zopt_eq a b = Ok false /\ ~ on_option same_val True a b /\ ~ on_option mixed False a b)
  \/ (zopt_eq a b = Raise TypeError /\ ~ on_option same_val True a b /\ on_option mixed False a b).
Proof. destruct a as [a|], b as [b|]; cbn; try tauto. apply zval_eq_cases. Qed.

Definition first_mixed (l1 l2 : list zval) : Prop :=
  exists p1 x q1 p2 y q2, l1 = p1 ++ x :: q1 /\ l2 = p2 ++ y :: q2 /\ Forall2 same_val p1 p2 /\ mixed x y.

Lemma zlist_eq_cases l1 : forall l2, (zlist_eq l1 l2 = Ok true /\ Forall2 same_val l1 l2 /\ ~ first_mixed l1 l2)
  \/ (zlist_eq l1 l2 = Ok false /\ ~ Forall2 same_val l1 l2 /\ ~ first_mixed l1 l2)
  \/ (zlist_eq l1 l2 = Raise TypeError /\ ~ Forall2 same_val l1 l2 /\ first_mixed l1 l2).
Proof.
  assert (NL : forall l, ~ first_mixed [] l) by (intros l (p1 & x & q1 & p2 & y & q2 & E & _); destruct p1; discriminate).
  assert (NR : forall l, ~ first_mixed l []) by (intros l (p1 & x & q1 & p2 & y & q2 & _ & E & _); destruct p2; discriminate).
  induction l1 as [|x l1 IH]; intros [|y l2]; cbn [zlist_eq].
  - left. auto.
  - right. left. split; [reflexivity|]. split; [intros H; inversion H|apply NL].
  - right. left. split; [reflexivity|]. split; [intros H; inversion H|apply NR].
  - assert (ST : same_val x y -> ~ mixed x y -> (first_mixed (x :: l1) (y :: l2) <-> first_mixed l1 l2)).
    { intros S M. split.
      - intros (p1 & u & q1 & p2 & v & q2 & E1 & E2 & F & X). destruct F as [|u' v' p1 p2 S' F].
        + injection E1 as -> _. injection E2 as -> _. contradiction.
        + injection E1 as _ E1. injection E2 as _ E2. exists p1, u, q1, p2, v, q2. auto.
      - intros (p1 & u & q1 & p2 & v & q2 & -> & -> & F & X). exists (x :: p1), u, q1, (y :: p2), v, q2. repeat split; auto. }
    destruct (zval_eq_cases x y) as [(-> & S & M)|[(-> & S & M)|(-> & S & M)]]; cbn [rbind].
    + destruct (IH l2) as [(-> & F & N)|[(-> & F & N)|(-> & F & N)]].
      * left. split; [reflexivity|]. split; [constructor; auto|]. now rewrite ST.
      * right. left. split; [reflexivity|]. split; [intros H; inversion H; contradiction|]. now rewrite ST.
      * right. right. split; [reflexivity|]. split; [intros H; inversion H; contradiction|]. now rewrite ST.
    + right. left. split; [reflexivity|]. split; [intros H; inversion H; contradiction|].
      intros (p1 & u & q1 & p2 & v & q2 & E1 & E2 & F & X). destruct F as [|u' v' p1 p2 S' F].
      * injection E1 as -> _. injection E2 as -> _. contradiction.
      * injection E1 as -> _. injection E2 as -> _. contradiction.
    + right. right. split; [reflexivity|]. split; [intros H; inversion H; contradiction|]. exists [], x, l1, [], y, l2. repeat split; auto.
Qed.

Lemma kind_eqb_iff a b : kind_eqb a b = true <-> a = b.
Proof. destruct a, b; cbn; split; congruence. Qed.

Lemma optz_eqb_iff a b : opt_eqb Z.eqb a b = true <-> a = b.
Proof. destruct a as [x|], b as [y|]; cbn; try (split; congruence). rewrite Z.eqb_eq. split; congruence. Qed.

Lemma listz_eqb_iff : forall a b, list_eqb Z.eqb a b = true <-> a = b.
Proof.
  induction a as [|x a IH]; intros [|y b]; cbn; try (split; congruence). rewrite andb_true_iff, Z.eqb_eq, IH. split; [intros [-> ->]; reflexivity|intros E; injection E; auto].
Qed.

Lemma extra_iff a b : z_kind a = z_kind b -> (extra_eqb (z_extra a) (z_extra b) = true <->
  (z_kind a = KWeekly -> z_weekdays a = z_weekdays b) /\ (z_kind a = KMonthly -> z_monthly a = z_monthly b)).
Proof.
  intros E. unfold z_extra. rewrite <- E. destruct (z_kind a); cbn; try (split; [intros _; split; discriminate|reflexivity]).
  - rewrite listz_eqb_iff. split; [intros H; split; [auto|discriminate]|intros [H _]; auto].
  - rewrite String.eqb_eq. split; [intros H; split; [discriminate|auto]|intros [_ H]; auto].
Qed.

Lemma zrule_eq_cases a b : (zrule_eq a b = Ok true /\ same_rule a b /\ ~ incomparable a b)
  \/ (zrule_eq a b = Ok false /\ ~ same_rule a b /\ ~ incomparable a b) \/ (zrule_eq a b = Raise TypeError /\ ~ same_rule a b /\ incomparable a b).
Proof.
  unfold zrule_eq, same_rule, incomparable. fold (first_mixed (z_exceptions a) (z_exceptions b)).
  destruct (kind_eqb (z_kind a) (z_kind b)) eqn:K.
  2:{ right. left. cbn. split; [reflexivity|]. assert (N : z_kind a <> z_kind b) by (intros E; apply kind_eqb_iff in E; congruence). tauto. }
  destruct (z_interval a =? z_interval b) eqn:I.
  2:{ right. left. cbn. split; [reflexivity|]. assert (N : z_interval a <> z_interval b) by lia. tauto. }
  destruct (opt_eqb Z.eqb (z_count a) (z_count b)) eqn:C.
  2:{ right. left. cbn. split; [reflexivity|]. assert (N : z_count a <> z_count b) by (intros E; apply optz_eqb_iff in E; congruence). tauto. }
  cbn [andb negb]. apply kind_eqb_iff in K. apply Z.eqb_eq in I. apply optz_eqb_iff in C.
  destruct (zopt_eq_cases (z_until a) (z_until b)) as [(-> & S & M)|[(-> & S & M)|(-> & S & M)]]; cbn [rbind negb]; [|right; left; tauto|right; right; tauto].
  destruct (zlist_eq_cases (z_exceptions a) (z_exceptions b)) as [(-> & F & N)|[(-> & F & N)|(-> & F & N)]]; cbn [rbind negb]; [|right; left; tauto|right; right; tauto].
  pose proof (extra_iff a b K) as X. destruct (extra_eqb (z_extra a) (z_extra b)); [left|right; left]; (split; [reflexivity|]); intuition congruence.
Qed.

Theorem C153_compare a b :
  (forall x, zrule_eq a b = Raise x <-> x = TypeError /\ incomparable a b)
  /\ (zrule_eq a b = Ok true <-> same_rule a b)
  /\ (zrule_eq a b = Ok false <-> ~ same_rule a b /\ ~ incomparable a b).
Proof.
  destruct (zrule_eq_cases a b) as [(-> & S & M)|[(-> & S & M)|(-> & S & M)]];
    (split; [intros x; split; [intros E; try discriminate E|intros [-> E]; try contradiction]|split; (split; intros E; try discriminate E; try tauto)]).
  - injection E as <-. auto.
  - reflexivity.
Qed.
Print Assumptions C153_compare.

(** comparing the other way round gives the same *)
Lemma same_val_sym a b : same_val a b <-> same_val b a.
Proof. destruct a, b; cbn; try tauto; split; congruence. Qed.
Lemma mixed_sym a b : mixed a b <-> mixed b a.
Proof. destruct a, b; cbn; tauto. Qed.
Lemma all_sym l1 : forall l2, Forall2 same_val l1 l2 -> Forall2 same_val l2 l1.
Proof. induction l1 as [|x l1 IH]; intros l2 H; inversion H; subst; constructor; [now apply same_val_sym|now apply IH]. Qed.
Lemma incomparable_sym a b : incomparable a b -> incomparable b a.
Proof.
  intros (K & I & C & H). split; [auto|]. split; [auto|]. split; [auto|].
  destruct H as [H|[H (p1 & x & q1 & p2 & y & q2 & E1 & E2 & F & M)]].
  - left. destruct (z_until a), (z_until b); cbn in *; try tauto. now apply mixed_sym.
  - right. split; [destruct (z_until a), (z_until b); cbn in *; try tauto; now apply same_val_sym|].
    exists p2, y, q2, p1, x, q1. split; [exact E2|]. split; [exact E1|]. split; [now apply all_sym|now apply mixed_sym].
Qed.
Lemma same_rule_sym a b : same_rule a b -> same_rule b a.
Proof.
  intros (K & I & C & U & F & W & M). split; [auto|]. split; [auto|]. split; [auto|].
  split; [destruct (z_until a), (z_until b); cbn in *; try tauto; now apply same_val_sym|]. split; [now apply all_sym|].
  split; intros E; symmetry; [apply W|apply M]; congruence.
Qed.
Theorem C153_symmetric a b : zrule_eq a b = zrule_eq b a.
Proof.
  destruct (zrule_eq_cases a b) as [(-> & S & M)|[(-> & S & M)|(-> & S & M)]], (zrule_eq_cases b a) as [(-> & S' & M')|[(-> & S' & M')|(-> & S' & M')]]; try reflexivity; exfalso;
    intuition auto using same_rule_sym, incomparable_sym.
Qed.
Print Assumptions C153_symmetric.

(** ** without zones *)
Lemma plain_val_eq a b : zval_eq (plain_val a) (plain_val b) = Ok (dval_eqb a b).
Proof. destruct a, b; reflexivity. Qed.
Lemma plain_list_eq l1 : forall l2, zlist_eq (map plain_val l1) (map plain_val l2) = Ok (list_eqb dval_eqb l1 l2).
Proof.
  induction l1 as [|x l1 IH]; intros [|y l2]; cbn [map zlist_eq list_eqb]; try reflexivity. rewrite plain_val_eq. cbn [rbind]. destruct (dval_eqb x y); [apply IH|reflexivity].
Qed.
Lemma plain_rule_eq a b : zrule_eq (plain_rule a) (plain_rule b) = Ok (rule_eq a b).
Proof.
  unfold zrule_eq, rule_eq, rtuple_eqb, tuple_for_comparison, plain_rule. cbn [z_kind z_interval z_count z_until z_exceptions z_weekdays z_monthly].
  destruct (kind_eqb (r_kind a) (r_kind b)) eqn:K; cbn [andb negb]; [|reflexivity].
  destruct (r_interval a =? r_interval b); cbn [andb negb]; [|reflexivity].
  destruct (opt_eqb Z.eqb (r_count a) (r_count b)); cbn [andb negb]; [|reflexivity].
  assert (U : zopt_eq (option_map plain_val (r_until a)) (option_map plain_val (r_until b)) = Ok (opt_eqb dval_eqb (r_until a) (r_until b))).
  { destruct (r_until a), (r_until b); cbn; try reflexivity. apply plain_val_eq. }
  rewrite U. cbn [rbind]. destruct (opt_eqb dval_eqb (r_until a) (r_until b)); cbn [andb negb]; [|reflexivity].
  rewrite plain_list_eq. cbn [rbind]. destruct (list_eqb dval_eqb (r_exceptions a) (r_exceptions b)); cbn [andb negb]; reflexivity.
Qed.

Lemma zrec_eq_cases a b : (zrec_eq a b = Ok true /\ ~ no_comparing a b) \/ (zrec_eq a b = Ok false /\ ~ no_comparing a b) \/ (zrec_eq a b = Raise TypeError /\ no_comparing a b).
Proof. destruct a as [a|], b as [b|]; cbn; try tauto. destruct (zrule_eq_cases a b) as [(-> & S & M)|[(-> & S & M)|(-> & S & M)]]; tauto. Qed.

(** ** one attribute *)
Lemma set_eqb_same a b : set_eqb a b = true <-> forall k, In k a <-> In k b.
Proof.
  unfold set_eqb. rewrite andb_true_iff, !forallb_forall. split.
  - intros [A B] k. split; intros I; [apply A in I|apply B in I]; now apply str_in_iff in I.
  - intros H. split; intros k I; apply str_in_iff, H, I.
Qed.
Lemma optstr_iff a b : opt_str_eqb a b = true <-> a = b.
Proof. destruct a as [x|], b as [y|]; cbn; try (split; congruence). rewrite String.eqb_eq. split; congruence. Qed.

Lemma attr_eq_cases a s z : (exists b, attr_eq a s z = Ok b /\ (b = true <-> agrees a s z) /\ (a = PRecurrence -> ~ no_comparing (ze_rec z) (zs_rec s)))
  \/ (attr_eq a s z = Raise TypeError /\ a = PRecurrence /\ no_comparing (ze_rec z) (zs_rec s) /\ ~ agrees a s z).
Proof.
  destruct a; try (left; eexists; split; [reflexivity|]; split; [|discriminate]; cbn [agrees];
    first [apply Z.eqb_eq | apply optz_eqb_iff | apply String.eqb_eq | apply Bool.eqb_true_iff | apply set_eqb_same | apply optstr_iff]).
  cbn [attr_eq agrees]. destruct (ze_rec z) as [x|], (zs_rec s) as [y|]; cbn [zrec_eq no_comparing].
  - destruct (zrule_eq_cases x y) as [(-> & S & M)|[(-> & S & M)|(-> & S & M)]]; [left; exists true|left; exists false|right]; (split; [reflexivity|]); intuition congruence.
  - left. exists false. split; [reflexivity|]. intuition congruence.
  - left. exists false. split; [reflexivity|]. intuition congruence.
  - left. exists true. split; [reflexivity|]. intuition congruence.
Qed.

Lemma same_rule_refl r : same_rule r r.
Proof.
  assert (V : forall v, same_val v v) by (intros []; cbn; auto).
  repeat split; auto. - destruct (z_until r); cbn; auto. - induction (z_exceptions r); constructor; auto.
Qed.

Lemma set_agrees a s z : agrees a s (attr_set a s z).
Proof. destruct a; cbn; try reflexivity. destruct (zs_rec s); [apply same_rule_refl|exact I]. Qed.
Lemma set_keeps a b s z : a <> b -> keeps b z (attr_set a s z).
Proof. intros N. destruct a, b; try congruence; reflexivity. Qed.
Lemma set_people_same a s z : same_people z (attr_set a s z).
Proof. destruct a; repeat split. Qed.
Lemma keeps_agrees a s z z' : keeps a z z' -> agrees a s z -> agrees a s z'.
Proof. destruct a; cbn; intros ->; auto. Qed.
Lemma keeps_refl a z : keeps a z z. Proof. destruct a; reflexivity. Qed.
Lemma keeps_trans a z1 z2 z3 : keeps a z1 z2 -> keeps a z2 z3 -> keeps a z1 z3.
Proof. destruct a; cbn; congruence. Qed.
Lemma people_trans z1 z2 z3 : same_people z1 z2 -> same_people z2 z3 -> same_people z1 z3.
Proof. unfold same_people. cbn. intuition congruence. Qed.
Lemma attr_dec (a b : attr) : {a = b} + {a <> b}. Proof. decide equality. Qed.

(** ** the loops *)
Lemma differs_cases order s z :
  (differs order s z = Ok false /\ forall a, In a order -> agrees a s z)
  \/ (exists pre a post, order = pre ++ a :: post /\ (forall b, In b pre -> agrees b s z) /\ ~ agrees a s z
       /\ ((differs order s z = Ok true /\ (a = PRecurrence -> ~ no_comparing (ze_rec z) (zs_rec s)))
           \/ (differs order s z = Raise TypeError /\ a = PRecurrence /\ no_comparing (ze_rec z) (zs_rec s)))).
Proof.
  induction order as [|a order IH]; cbn [differs].
  - left. split; [reflexivity|]. intros a [].
  - destruct (attr_eq_cases a s z) as [(b & -> & B & C)|(-> & -> & NC & NA)]; cbn [rbind].
    + destruct b.
      * destruct IH as [[-> H]|(pre & c & post & -> & H & N & D)].
        -- left. split; [reflexivity|]. intros c [<-|I]; [now apply B|now apply H].
        -- right. exists (a :: pre), c, post. split; [reflexivity|]. split; [intros d [<-|I]; [now apply B|now apply H]|]. split; [exact N|exact D].
      * right. exists [], a, order. split; [reflexivity|]. split; [intros ? []|]. split; [intros X; apply B in X; discriminate|]. left. auto.
    + right. exists [], PRecurrence, order. split; [reflexivity|]. split; [intros ? []|]. split; [exact NA|]. right. auto.
Qed.

Lemma set_each_cases order s : forall z, NoDup order ->
  (snd (set_each order s z) = Ok tt /\ (In PRecurrence order -> ~ no_comparing (ze_rec z) (zs_rec s))
     /\ same_people z (fst (set_each order s z))
     /\ forall a, (In a order -> agrees a s (fst (set_each order s z))) /\ (~ In a order -> keeps a z (fst (set_each order s z))))
  \/ (snd (set_each order s z) = Raise TypeError /\ no_comparing (ze_rec z) (zs_rec s)
     /\ same_people z (fst (set_each order s z))
     /\ exists pre post, order = pre ++ PRecurrence :: post
         /\ forall a, (In a pre -> agrees a s (fst (set_each order s z))) /\ (~ In a pre -> keeps a z (fst (set_each order s z)))).
Proof.
  induction order as [|c order IH]; intros z ND.
  - left. cbn. split; [reflexivity|]. split; [tauto|]. split; [repeat split|]. intros a. split; [tauto|]. intros _. apply keeps_refl.
  - inversion ND as [|? ? NI ND']. subst. cbn [set_each].
    destruct (attr_eq_cases c s z) as [(b & -> & B & C)|(-> & -> & NC & NA)].
    + set (z1 := if b then z else attr_set c s z).
      assert (P1 : same_people z z1) by (unfold z1; destruct b; [repeat split|apply set_people_same]).
      assert (A1 : agrees c s z1) by (unfold z1; destruct b; [now apply B|apply set_agrees]).
      assert (K1 : forall a, a <> c -> keeps a z z1) by (intros a N; unfold z1; destruct b; [apply keeps_refl|apply set_keeps; auto]).
      destruct (IH z1 ND') as [(E & NR & P & H)|(E & NR & P & pre & post & -> & H)].
      * left. split; [exact E|]. split.
        { intros [X|I]; [now apply C|]. assert (N : PRecurrence <> c) by (intros X; apply NI; now rewrite <- X). specialize (K1 _ N). cbn in K1. rewrite <- K1. now apply NR. }
        split; [exact (people_trans _ _ _ P1 P)|]. intros a. split.
        { intros [<-|I]; [|now apply H]. apply (keeps_agrees c s z1); [now apply H|exact A1]. }
        intros N. apply (keeps_trans a z z1); [apply K1; intros ->; apply N; now left|apply H; intros I; apply N; now right].
      * right. split; [exact E|].
        assert (N : PRecurrence <> c) by (intros X; apply NI, in_app_iff; right; left; exact X).
        split; [specialize (K1 _ N); cbn in K1; now rewrite <- K1|]. split; [exact (people_trans _ _ _ P1 P)|].
        exists (c :: pre), post. split; [reflexivity|]. intros a. split.
        { intros [<-|I]; [|now apply H]. apply (keeps_agrees c s z1); [|exact A1]. apply H. intros I. apply NI, in_app_iff. now left. }
        intros M. apply (keeps_trans a z z1); [apply K1; intros ->; apply M; now left|apply H; intros I; apply M; now right].
    + right. cbn [fst snd]. split; [reflexivity|]. split; [exact NC|]. split; [repeat split|]. exists [], order. split; [reflexivity|].
      intros a. split; [intros []|]. intros _. apply keeps_refl.
Qed.

(** ** the people *)
Definition like (e e' : event) : Prop :=
  e_uid e' = e_uid e /\ e_organizer e' = e_organizer e /\ e_state e' = e_state e /\ e_role e' = e_role e.
Definition attrs_like (e e' : event) : Prop :=
  e_dtstart e' = e_dtstart e /\ e_duration e' = e_duration e /\ e_title e' = e_title e /\ e_description e' = e_description e
  /\ e_location e' = e_location e /\ e_status e' = e_status e /\ e_allday e' = e_allday e /\ e_categories e' = e_categories e
  /\ e_transparent e' = e_transparent e /\ e_access e' = e_access e /\ e_document e' = e_document e.
(** two calls on events with the same people: the same outcome, the same people, other attributes untouched *)
Definition parallel (f : event -> mut) : Prop := forall e e', like e e' ->
  mres (f e) = mres (f e') /\ like (mev (f e)) (mev (f e')) /\ attrs_like e (mev (f e)) /\ mres (f e) <> Raise TypeError.

Lemma like_trans a b c : attrs_like a b -> attrs_like b c -> attrs_like a c.
Proof. unfold attrs_like. intuition congruence. Qed.

Lemma parallel_bind f g : parallel f -> parallel g -> parallel (fun e => mbind (f e) g).
Proof.
  intros F G e e' L. destruct (F e e' L) as (R & L1 & A & N). unfold mres, mev in *. destruct (f e) as [[e1 n1] r1], (f e') as [[e2 n2] r2]. cbn [fst snd] in *. subst r2.
  cbn [mbind]. destruct r1 as [[]|x|]; cbn [fst snd]; auto.
  destruct (G e1 e2 L1) as (R' & L' & A' & N'). unfold mres, mev in *. destruct (g e1) as [[e3 n3] r3], (g e2) as [[e4 n4] r4]. cbn [fst snd] in *.
  split; [exact R'|]. split; [exact L'|]. split; [exact (like_trans _ _ _ A A')|exact N'].
Qed.

Lemma parallel_role a ro : parallel (fun e => set_role e a ro).
Proof.
  intros e e' (U & O & S & R). unfold set_role. destruct (str_in ro roles); [destruct a as [i|]; cbn [attendee_id]|]; cbn; unfold like, attrs_like; cbn; rewrite ?R; repeat split; auto; discriminate.
Qed.

Lemma parallel_raw a st : parallel (fun e => set_status_raw e a st).
Proof.
  intros e e' (U & O & S & R). unfold set_status_raw. destruct a as [i|]; cbn [attendee_id].
  - destruct st as [w|].
    + cbn. unfold like, attrs_like. cbn. rewrite S. repeat split; auto; discriminate.
    + unfold ddel. rewrite S. destruct (dget (e_state e) i); cbn [e_role with_state].
      * rewrite R. destruct (dget (e_role e) i); cbn; unfold like, attrs_like; cbn; rewrite ?S, ?R; repeat split; auto; discriminate.
      * cbn. unfold like, attrs_like. repeat split; auto; discriminate.
  - cbn. unfold like, attrs_like. repeat split; auto; discriminate.
Qed.

Lemma parallel_entries l : parallel (fun e => set_attendees e l).
Proof.
  induction l as [|[[a ro] st] l IH]; cbn [set_attendees].
  - intros e e' L. cbn. unfold attrs_like. repeat split; try apply L; discriminate.
  - apply (parallel_bind (fun e => mbind (set_role e a ro) (fun e1 => set_status_raw e1 a st))); [|exact IH].
    apply parallel_bind; [apply parallel_role|apply parallel_raw].
Qed.

Lemma parallel_people v : parallel (set_people v).
Proof.
  unfold set_people. destruct (s_organizer v) as [i|].
  - apply (parallel_bind (fun e => mbind (mbind (set_status_raw e (Some i) (Some "ACCEPTED"%string)) (fun e1 => set_role e1 (Some i) "REQ-PARTICIPANT"))
                   (fun e2 => (with_organizer e2 (Some i), [], Ok tt)))); [|apply parallel_entries].
    apply parallel_bind; [apply parallel_bind; [apply parallel_raw|apply parallel_role]|].
    intros e e' (U & O & S & R). cbn. unfold like, attrs_like. cbn. repeat split; auto; discriminate.
  - apply (parallel_bind (fun e => (with_organizer e None, [], Ok tt))); [|apply parallel_entries].
    intros e e' (U & O & S & R). cbn. unfold like, attrs_like. cbn. repeat split; auto; discriminate.
Qed.

Lemma attendees_differ_raise e l x : attendees_differ e l = Raise x -> x = AttributeError.
Proof.
  induction l as [|[[a ro] st] l IH]; cbn [attendees_differ]; [discriminate|]. unfold get_status, get_role.
  destruct a as [i|]; cbn [attendee_id rbind]; [|congruence].
  destruct (negb _); [discriminate|]. destruct (negb _); [discriminate|]. exact IH.
Qed.

(** ** theorems *)
(** Asking whether the specification would change the event raises exactly if nothing that
    is looked at before the rules differs. *)
Theorem C153_will_modify order s z : z_will_modify order s z = Raise TypeError <->
  no_comparing (ze_rec z) (zs_rec s) /\ exists pre post, order = pre ++ PRecurrence :: post /\ forall a, In a pre -> agrees a s z.
Proof.
  unfold z_will_modify. destruct (differs_cases order s z) as [[-> H]|(pre & a & post & E & H & N & [[-> C]|(-> & -> & NC)])]; cbn [rbind].
  - split.
    + intros R. exfalso. revert R. destruct (match s_organizer (zs_spec s) with Some _ => _ | None => _ end); [discriminate|].
      unfold get_status, get_role. destruct (s_organizer (zs_spec s)) as [i|]; cbn [attendee_id rbind]; [|discriminate].
      destruct (negb _); [discriminate|]. destruct (negb _); [discriminate|]. intros R. apply attendees_differ_raise in R. discriminate.
    + intros (NC & pre & post & -> & _). exfalso. assert (A : agrees PRecurrence s z) by (apply H, in_app_iff; right; now left).
      destruct (attr_eq_cases PRecurrence s z) as [(b & _ & _ & X)|(_ & _ & _ & X)]; [now apply X|contradiction].
  - split; [discriminate|]. intros (NC & pre' & post' & E' & H'). exfalso.
    assert (NA : ~ agrees PRecurrence s z) by (intros A; destruct (attr_eq_cases PRecurrence s z) as [(b & _ & _ & X)|(_ & _ & _ & X)]; [now apply X|contradiction]).
    rewrite E in E'. clear E. revert pre' E' H' H. induction pre as [|c pre IH]; intros [|c' pre'] E' H' H; cbn in E'; injection E' as E1 E2.
    + subst a. now apply C.
    + subst a. apply N, H'. now left.
    + subst c. apply NA, H. now left.
    + apply (IH pre' E2); intros d I; [apply H'|apply H]; now right.
  - split; [|reflexivity]. intros _. split; [exact NC|]. exists pre, post. auto.
Qed.
Print Assumptions C153_will_modify.

(** Applying the specification raises exactly if the rules cannot be compared; what was
    looked at before has been set by then, nothing else. *)
Theorem C153_set order s z : every_attribute order ->
  let (z', r) := z_set_on_object order s z in
  (no_comparing (ze_rec z) (zs_rec s) -> r = Raise TypeError /\ same_people z z'
     /\ exists pre post, order = pre ++ PRecurrence :: post /\ forall a, (In a pre -> agrees a s z') /\ (~ In a pre -> keeps a z z'))
  /\ (~ no_comparing (ze_rec z) (zs_rec s) -> r = mres (set_on_object (zs_spec s) (ze_event z)) /\ r <> Raise TypeError
     /\ same_people (mkZe (mev (set_on_object (zs_spec s) (ze_event z))) None) z' /\ forall a, agrees a s z').
Proof.
  intros [ND ALL]. unfold z_set_on_object. destruct (set_each order s z) as [z1 r1] eqn:SE.
  destruct (set_each_cases order s z ND) as [(E & NC & P & H)|(E & NC & P & H)]; rewrite SE in *; cbn [fst snd] in *; subst r1.
  - specialize (NC (ALL PRecurrence)).
    assert (L : like (ze_event z1) (set_attrs (zs_spec s) (ze_event z))).
    { destruct P as (P1 & P2 & P3 & P4). unfold like. cbn. auto. }
    destruct (parallel_people (zs_spec s) _ _ L) as (R & L' & A & N). change (set_people (zs_spec s) (set_attrs (zs_spec s) (ze_event z))) with (set_on_object (zs_spec s) (ze_event z)) in *.
    unfold mres, mev in *. destruct (set_people (zs_spec s) (ze_event z1)) as [[e2 n2] r2]. cbn [fst snd] in *.
    split; [intros X; contradiction|]. intros _. split; [exact R|]. split; [exact N|].
    split; [destruct L' as (L1 & L2 & L3 & L4); unfold same_people; cbn [ze_event]; auto|].
    intros a. specialize (proj1 (H a) (ALL a)). apply keeps_agrees. unfold attrs_like in A. decompose [and] A. destruct a; cbn; auto.
  - split; [|intros X; contradiction]. intros _. split; [reflexivity|]. split; [exact P|exact H].
Qed.
Print Assumptions C153_set.

(** An import of an event that exists raises TypeError exactly if the rules cannot be
    compared, whatever the order of the dictionary; the order only decides which other
    attributes were taken over.  Nobody is told. *)
Theorem C153_import order s z : every_attribute order ->
  let '(z', told, r) := z_import_existing order s z in
  (r = Raise TypeError <-> no_comparing (ze_rec z) (zs_rec s))
  /\ (no_comparing (ze_rec z) (zs_rec s) -> told = false /\ same_people z z' /\ keeps PRecurrence z z'
      /\ exists pre post, order = pre ++ PRecurrence :: post /\ forall a, (In a pre -> agrees a s z') /\ (~ In a pre -> keeps a z z')).
Proof.
  intros EA. pose proof (C153_set order s z EA) as CS. pose proof (C153_will_modify order s z) as CW. destruct EA as [ND ALL].
  unfold z_import_existing. destruct (z_set_on_object order s z) as [z' r]. destruct CS as [CS1 CS2].
  assert (D : no_comparing (ze_rec z) (zs_rec s) \/ ~ no_comparing (ze_rec z) (zs_rec s)).
  { destruct (attr_eq_cases PRecurrence s z) as [(b & _ & _ & X)|(_ & _ & X & _)]; [right; now apply X|now left]. }
  destruct (z_will_modify order s z) as [[|]|x|] eqn:W.
  - destruct D as [NC|NC].
    + destruct (CS1 NC) as (-> & P & pre & post & E & H). split; [tauto|]. intros _. split; [reflexivity|]. split; [exact P|].
      split; [|exists pre, post; auto]. apply H. intros I. rewrite E in ND. apply NoDup_remove_2 in ND. apply ND, in_app_iff. now left.
    + destruct (CS2 NC) as (_ & N & _). destruct r as [[]|y|]; (split; [|intros X; contradiction]); (split; [intros X; try discriminate X; contradiction|intros X; contradiction]).
  - assert (NC : ~ no_comparing (ze_rec z) (zs_rec s)).
    { intros NC. destruct (differs_cases order s z) as [[E H]|(pre & a & post & E & H & N & [[X C]|(X & _ & _)])].
      - assert (A : agrees PRecurrence s z) by (apply H, ALL). destruct (attr_eq_cases PRecurrence s z) as [(b & _ & _ & X)|(_ & _ & _ & X)]; [now apply X|contradiction].
      - unfold z_will_modify in W. rewrite X in W. discriminate.
      - unfold z_will_modify in W. rewrite X in W. discriminate. }
    split; [split; [discriminate|intros X; contradiction]|intros X; contradiction].
  - destruct D as [NC|NC].
    + assert (x = TypeError) as ->.
      { destruct (differs_cases order s z) as [[E H]|(pre & a & post & E & H & N & [[X C]|(X & _ & _)])].
        - assert (A : agrees PRecurrence s z) by (apply H, ALL). destruct (attr_eq_cases PRecurrence s z) as [(b & _ & _ & X)|(_ & _ & _ & X)]; [destruct (X eq_refl NC)|contradiction].
        - unfold z_will_modify in W. rewrite X in W. discriminate.
        - unfold z_will_modify in W. rewrite X in W. cbn in W. congruence. }
      split; [tauto|]. intros _. split; [reflexivity|]. split; [repeat split|]. split; [apply keeps_refl|].
      destruct (proj1 CW eq_refl) as (_ & pre & post & E & H). exists pre, post. split; [exact E|]. intros a. split; [auto|intros _; apply keeps_refl].
    + split; [|intros X; contradiction]. split; [|intros X; contradiction]. intros E. injection E as ->. apply (proj1 CW eq_refl).
  - exfalso. unfold z_will_modify in W. destruct (differs_cases order s z) as [[X _]|(pre & a & post & _ & _ & _ & [[X _]|(X & _)])]; rewrite X in W; cbn [rbind] in W; try discriminate.
    revert W. destruct (match s_organizer (zs_spec s) with Some _ => _ | None => _ end); [discriminate|].
    unfold get_status, get_role. destruct (s_organizer (zs_spec s)) as [i|]; cbn [attendee_id rbind]; [|discriminate].
    destruct (negb _); [discriminate|]. destruct (negb _); [discriminate|]. generalize (s_attendees (zs_spec s)). induction l as [|[[b ro] st] l IH]; cbn [attendees_differ]; [discriminate|].
    unfold get_status, get_role. destruct b as [k|]; cbn [attendee_id rbind]; [|discriminate]. destruct (negb _); [discriminate|]. destruct (negb _); [discriminate|]. exact IH.
Qed.
Print Assumptions C153_import.

(** An import that returns leaves every attribute as specified; it is announced exactly if
    the specification was going to modify the event, and changes nothing otherwise. *)
Theorem C153_told order s z : every_attribute order ->
  let '(z', told, r) := z_import_existing order s z in
  (r = Ok tt -> forall a, agrees a s z')
  /\ (told = true <-> r = Ok tt /\ z_will_modify order s z = Ok true)
  /\ (r = Ok tt -> told = false -> z' = z).
Proof.
  intros EA. pose proof (C153_set order s z EA) as CS. destruct EA as [ND ALL].
  assert (D : no_comparing (ze_rec z) (zs_rec s) \/ ~ no_comparing (ze_rec z) (zs_rec s)).
  { destruct (attr_eq_cases PRecurrence s z) as [(b & _ & _ & X)|(_ & _ & X & _)]; [right; now apply X|now left]. }
  unfold z_import_existing. destruct (z_set_on_object order s z) as [z1 r1]. destruct CS as [CS1 CS2].
  destruct (z_will_modify order s z) as [[|]|x|] eqn:W.
  - assert (AG : r1 = Ok tt -> forall a, agrees a s z1).
    { intros ->. destruct D as [NC|NC]; [destruct (CS1 NC) as (X & _); discriminate|]. apply (CS2 NC). }
    destruct r1 as [[]|y|].
    + split; [exact AG|]. split; [tauto|discriminate].
    + split; [discriminate|]. split; [split; [discriminate|intros [X _]; discriminate]|discriminate].
    + split; [discriminate|]. split; [split; [discriminate|intros [X _]; discriminate]|discriminate].
  - split; [|split; [split; [discriminate|intros [_ X]; discriminate]|reflexivity]]. intros _ a.
    destruct (differs_cases order s z) as [[E H]|(pre & b & post & E & H & N & [[X C]|(X & _ & _)])]; [apply H, ALL| |];
      unfold z_will_modify in W; rewrite X in W; discriminate W.
  - split; [discriminate|]. split; [split; [discriminate|intros [X _]; discriminate]|discriminate].
  - split; [discriminate|]. split; [split; [discriminate|intros [X _]; discriminate]|discriminate].
Qed.
Print Assumptions C153_told.

(** Without zones nothing depends on the order, and the rest of the model is right. *)
Theorem C153_plain order sp e : every_attribute order ->
  ~ no_comparing (ze_rec (plain_event e)) (zs_rec (plain_spec sp))
  /\ z_will_modify order (plain_spec sp) (plain_event e) = will_modify sp e.
Proof.
  intros [ND ALL]. set (s := plain_spec sp). set (z := plain_event e).
  assert (RE : zrec_eq (ze_rec z) (zs_rec s) = Ok (opt_rule_eqb (e_recurrence e) (s_recurrence sp))).
  { unfold s, z. cbn. destruct (e_recurrence e), (s_recurrence sp); cbn; try reflexivity. apply plain_rule_eq. }
  assert (NC : ~ no_comparing (ze_rec z) (zs_rec s)).
  { destruct (zrec_eq_cases (ze_rec z) (zs_rec s)) as [[_ X]|[[_ X]|[X _]]]; [exact X|exact X|congruence]. }
  split; [exact NC|].
  assert (AG : attrs_differ sp e = false <-> forall a, agrees a s z).
  { assert (R : opt_rule_eqb (e_recurrence e) (s_recurrence sp) = true <-> agrees PRecurrence s z).
    { destruct (attr_eq_cases PRecurrence s z) as [(b & E & B & _)|(E & _)]; cbn [attr_eq] in E; [|congruence]. rewrite RE in E. injection E as ->. exact B. }
    unfold attrs_differ. rewrite negb_false_iff, !andb_true_iff, Z.eqb_eq, optz_eqb_iff, !String.eqb_eq, R, !Bool.eqb_true_iff, set_eqb_same, optstr_iff.
    split; [intros H; decompose [and] H; intros []; cbn; auto|].
    intros H. pose proof (H PDtstart). pose proof (H PDuration). pose proof (H PTitle). pose proof (H PDescription). pose proof (H PLocation). pose proof (H PStatus).
    pose proof (H PRecurrence). pose proof (H PAllday). pose proof (H PCategories). pose proof (H PTransparent). pose proof (H PAccess). pose proof (H PDocument).
    cbn [agrees s z zs_spec ze_event plain_spec plain_event] in *. tauto. }
  unfold z_will_modify, will_modify. destruct (differs_cases order s z) as [[-> H]|(pre & a & post & E & H & N & [[-> C]|(-> & -> & X)])]; cbn [rbind]; [| |contradiction].
  - assert (AD : attrs_differ sp e = false) by (apply AG; intros a; apply H, ALL). rewrite AD. reflexivity.
  - destruct (attrs_differ sp e) eqn:AD; [reflexivity|]. destruct (N (proj1 AG eq_refl a)).
Qed.
Print Assumptions C153_plain.

(** a daily meeting until 18:00 that comes back with a new title and an until of 18:00 UTC:
    the import raises; whether the title was taken over depends on the dictionary *)
Definition zc_rule (u : zval) : zrule := mkZ KDaily 1 None (Some u) [ZDate 732503; ZNaive 5] [] "".
Definition zc_spec (title : string) (u : zval) : zspec :=
  mkZs (mkSpec (732500 * DAY) (Some HOUR) title "" "" "TENTATIVE" None false [] false "PUBLIC" None (Some "ann"%string) []) (Some (zc_rule u)).
Definition zc_event : zevent :=
  fst (z_set_on_object [PTitle; PDtstart; PDuration; PDescription; PLocation; PStatus; PRecurrence; PAllday; PCategories; PTransparent; PAccess; PDocument]
    (zc_spec "old" (ZNaive (732600 * DAY))) (plain_event (blank "a1"))).
Definition zc_order1 : list attr := [PTitle; PDtstart; PDuration; PDescription; PLocation; PStatus; PRecurrence; PAllday; PCategories; PTransparent; PAccess; PDocument].
Definition zc_order2 : list attr := rev zc_order1.
Example C153_case : let s := zc_spec "new" (ZAware (732600 * DAY) 0) in
  every_attribute zc_order1 /\ every_attribute zc_order2 /\ no_comparing (ze_rec zc_event) (zs_rec s)
  /\ (let '(z', told, r) := z_import_existing zc_order1 s zc_event in e_title (ze_event z') = "new"%string /\ told = false /\ r = Raise TypeError)
  /\ (let '(z', told, r) := z_import_existing zc_order2 s zc_event in e_title (ze_event z') = "old"%string /\ told = false /\ r = Raise TypeError)
  /\ snd (z_import_existing zc_order2 (zc_spec "new" (ZAware (732600 * DAY + HOUR) HOUR)) (mkZe (ze_event zc_event) (zs_rec s))) = Ok tt.
Proof.
  assert (E1 : every_attribute zc_order1) by (split; [repeat constructor; cbn; intuition discriminate|intros []; cbn; tauto]).
  cbv zeta. split; [exact E1|]. split; [split; [apply NoDup_rev, E1|intros a; unfold zc_order2; rewrite <- in_rev; apply E1]|]. vm_compute. auto 10.
Qed.
