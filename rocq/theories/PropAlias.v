(** Objects changed in place: C89. *)
From Verif Require Import Base PyDate Recurrent CalTime Event Storage ICal System Alias SystemProofs RecurMisc PropICal.

(** what an event shows *)
Definition attr_value (t : things) (v : option nat) : option cell := match v with Some l => Some (the_cell t l) | None => None end.
Definition shown (t : things) (e : nat) : option cell * option cell :=
  (attr_value t (h_cats (the_event t e)), attr_value t (h_rec (the_event t e))).

Definition refers_to (x : holder) (l : nat) : Prop := h_cats x = Some l \/ h_rec x = Some l.

(** * Every reference is to an object *)
Definition in_range (n : nat) (x : holder) : Prop := opt_lt (h_cats x) n /\ opt_lt (h_rec x) n.
Definition well (t : things) : Prop := Forall (in_range (List.length (t_cells t))) (t_specs t) /\ Forall (in_range (List.length (t_cells t))) (t_events t).

Lemma opt_lt_le o n m : opt_lt o n -> (n <= m)%nat -> opt_lt o m.
Proof. destruct o; cbn; [lia|auto]. Qed.
Lemma in_range_le n m x : in_range n x -> (n <= m)%nat -> in_range m x.
Proof. intros [A B] L. split; eapply opt_lt_le; eassumption. Qed.
Lemma Forall_range_le n m l : (n <= m)%nat -> Forall (in_range n) l -> Forall (in_range m) l.
Proof. intros L. apply Forall_impl. intros x H. eapply in_range_le; eassumption. Qed.

Lemma nth_range n l k : Forall (in_range n) l -> in_range n (nth k l (mkHolder None None)).
Proof. intros H. apply Forall_nth_default; [exact H|]. split; exact I. Qed.

Lemma set_on_range t n sp e : in_range n sp -> in_range n e -> in_range n (set_on t sp e).
Proof. intros [A B] [C D]. unfold set_on, set_attr. split; cbn; destruct (differ _ _ _); assumption. Qed.

Lemma imported_shape t cats rec : let (cells, sp) := imported t cats rec in
  (exists new, cells = t_cells t ++ new) /\ in_range (List.length cells) sp
  /\ (forall l, refers_to sp l -> (List.length (t_cells t) <= l)%nat) /\ (List.length (t_cells t) <= List.length cells)%nat.
Proof.
  unfold imported. cbv zeta. destruct rec as [r|]; rewrite app_length; cbn [List.length].
  - split; [eexists; reflexivity|]. split; [split; cbn; lia|]. split; [|lia]. intros l [E|E]; cbn in E; injection E as <-; lia.
  - split; [eexists; reflexivity|]. split; [split; cbn; [lia|exact I]|]. split; [|lia]. intros l [E|E]; cbn in E; [injection E as <-; lia|discriminate].
Qed.

Lemma astep_well t o : well t -> arefers t o -> well (astep t o).
Proof.
  intros [S E] R. destruct o as [c|cats rec|sp|sp e|e cats rec|l c|cats rec|e cats rec]; cbn [astep arefers] in *.
  - split; cbn; rewrite app_length; (eapply Forall_range_le; [|eassumption]; lia).
  - destruct R as [R1 R2]. destruct cats as [c|]; split; cbn; try assumption.
    + apply Forall_app. split; [exact S|]. constructor; [split; assumption|constructor].
    + rewrite app_length. cbn. apply Forall_app. split; [(eapply Forall_range_le; [|eassumption]; lia)|]. constructor; [|constructor]. split; cbn; [lia|]. eapply opt_lt_le; [eassumption|lia].
    + rewrite app_length. (eapply Forall_range_le; [|eassumption]; lia).
  - split; cbn; [exact S|]. apply Forall_app. split; [exact E|]. constructor; [now apply nth_range|constructor].
  - split; cbn; [exact S|]. apply Forall_replace; [exact E|]. apply set_on_range; now apply nth_range.
  - split; cbn; [exact S|]. apply Forall_replace; [exact E|]. destruct R as (_ & R1 & R2). split; assumption.
  - split; cbn; rewrite replace_nth_length; assumption.
  - pose proof (imported_shape t cats rec) as X. destruct (imported t cats rec) as [cells sp]. destruct X as (_ & X1 & _ & X2).
    split; cbn; [(eapply Forall_range_le; [|eassumption]; lia)|]. apply Forall_app. split; [(eapply Forall_range_le; [|eassumption]; lia)|]. now constructor.
  - pose proof (imported_shape t cats rec) as X. destruct (imported t cats rec) as [cells sp]. destruct X as (_ & X1 & _ & X2).
    split; cbn; [(eapply Forall_range_le; [|eassumption]; lia)|]. apply Forall_replace; [(eapply Forall_range_le; [|eassumption]; lia)|].
    apply set_on_range; [exact X1|]. apply (in_range_le (List.length (t_cells t))); [now apply nth_range|exact X2].
Qed.

Lemma ahistory_well t h : ahistory t h -> well t.
Proof. induction 1; [split; constructor|]. now apply astep_well. Qed.

(** * C89 *)
(** Changing an object in place changes what an event shows exactly where the
    event refers to it. *)
Theorem C89_change_exact t h l c : ahistory t h -> arefers t (AChange l c) ->
  forall e, let t' := astep t (AChange l c) in
  the_event t' e = the_event t e
  /\ forall v, attr_value t' v = if match v with Some k => Nat.eqb k l | None => false end then Some c else attr_value t v.
Proof.
  intros H R e t'. split; [reflexivity|]. intros [k|]; [|reflexivity]. unfold t'. cbn [astep attr_value]. unfold the_cell. cbn [t_cells].
  cbn [arefers] in R. rewrite replace_nth_get. destruct (Nat.eqb_spec k l) as [->|]; cbn [andb]; [|reflexivity].
  destruct (Nat.ltb_spec l (List.length (t_cells t))); [reflexivity|lia].
Qed.
Print Assumptions C89_change_exact.

(** the object a call hands over to an event *)
Definition hands_over (t : things) (o : aop) (l : nat) : Prop :=
  match o with
  | ACreate sp | AApply sp _ => refers_to (the_spec t sp) l
  | AAssign _ cats rec => cats = Some l \/ rec = Some l
  | _ => False
  end.

Lemma nth_app_event (l : list holder) x k d : nth k (l ++ [x]) d = if Nat.eqb k (List.length l) then x else nth k l d.
Proof.
  destruct (Nat.eqb_spec k (List.length l)) as [->|N]; [now rewrite app_nth2, Nat.sub_diag by lia|].
  destruct (Nat.lt_ge_cases k (List.length l)) as [L|L]; [now rewrite app_nth1|].
  rewrite app_nth2, (nth_overflow l) by lia. destruct (k - List.length l)%nat as [|[|q]] eqn:Q; [lia|reflexivity..].
Qed.

Lemma set_on_refers t sp e l : refers_to (set_on t sp e) l -> refers_to sp l \/ refers_to e l.
Proof. unfold set_on, set_attr, refers_to. cbn. destruct (differ _ _ _), (differ _ _ _); tauto. Qed.

Lemma event_in_range t e l : well t -> refers_to (the_event t e) l -> (l < List.length (t_cells t))%nat.
Proof.
  intros [_ E] R. pose proof (nth_range _ _ e E) as [A B]. fold (the_event t e) in A, B. destruct R as [R|R]; rewrite R in *; assumption.
Qed.

Lemma no_default l : ~ refers_to (mkHolder None None) l.
Proof. intros [E|E]; discriminate. Qed.

(** Two events come to refer to the same object only by a call that hands it over:
    an import never makes two events share. *)
Theorem C89_sharing_arises t h o e1 e2 l : ahistory t h -> arefers t o -> e1 <> e2 ->
  refers_to (the_event (astep t o) e1) l -> refers_to (the_event (astep t o) e2) l ->
  (refers_to (the_event t e1) l /\ refers_to (the_event t e2) l) \/ hands_over t o l.
Proof.
  intros H R N. pose proof (ahistory_well t h H) as W.
  destruct o as [c|cats rec|sp|sp e|e cats rec|k c|cats rec|e cats rec]; cbn [astep hands_over].
  - auto.
  - destruct cats; auto.
  - unfold the_event. cbn [t_events]. rewrite !nth_app_event. destruct (Nat.eqb_spec e1 (List.length (t_events t))) as [->|]; [auto|].
    destruct (Nat.eqb_spec e2 (List.length (t_events t))) as [->|]; auto.
  - unfold the_event. cbn [t_events]. rewrite !replace_nth_get. destruct (andb _ _) eqn:B1.
    + intros X. apply set_on_refers in X as [X|X]; [auto|]. apply andb_true_iff in B1 as [B1 B2]. apply Nat.eqb_eq in B1. subst e1.
      destruct (Nat.eqb_spec e2 e); [congruence|]. cbn [andb]. auto.
    + intros X. destruct (andb (Nat.eqb e2 e) _) eqn:B2; [|auto]. intros Y. apply set_on_refers in Y as [Y|Y]; [auto|].
      apply andb_true_iff in B2 as [B2 _]. apply Nat.eqb_eq in B2. subst e2. auto.
  - unfold the_event. cbn [t_events]. rewrite !replace_nth_get. destruct (andb _ _) eqn:B1; [unfold refers_to; cbn; tauto|].
    intros X. destruct (andb (Nat.eqb e2 e) _) eqn:B2; [unfold refers_to; cbn; tauto|]. auto.
  - auto.
  - pose proof (imported_shape t cats rec) as X. destruct (imported t cats rec) as [cells sp]. destruct X as (_ & _ & X & _).
    unfold the_event. cbn [t_events]. rewrite !nth_app_event. destruct (Nat.eqb_spec e1 (List.length (t_events t))) as [->|].
    + destruct (Nat.eqb_spec e2 (List.length (t_events t))) as [|]; [congruence|]. intros Y Z. apply X in Y. apply (event_in_range t e2 l W) in Z. lia.
    + intros Y. destruct (Nat.eqb_spec e2 (List.length (t_events t))) as [->|]; [|auto]. intros Z. apply X in Z. apply (event_in_range t e1 l W) in Y. lia.
  - pose proof (imported_shape t cats rec) as X. destruct (imported t cats rec) as [cells sp]. destruct X as (_ & _ & X & _).
    unfold the_event. cbn [t_events]. rewrite !replace_nth_get. destruct (andb _ _) eqn:B1.
    + apply andb_true_iff in B1 as [B1 B2]. apply Nat.eqb_eq in B1. subst e1. destruct (Nat.eqb_spec e2 e); [congruence|]. cbn [andb].
      intros Y Z. apply set_on_refers in Y as [Y|Y]; [|auto]. apply X in Y. apply (event_in_range t e2 l W) in Z. lia.
    + intros Y. destruct (andb (Nat.eqb e2 e) _) eqn:B2; [|auto]. apply andb_true_iff in B2 as [B2 _]. apply Nat.eqb_eq in B2. subst e2.
      intros Z. apply set_on_refers in Z as [Z|Z]; [|auto]. apply X in Z. apply (event_in_range t e1 l W) in Y. lia.
Qed.
Print Assumptions C89_sharing_arises.

(** The same categories; a rule that compares equal and yields the same dates. *)
Definition cell_same (a b : cell) : Prop :=
  match a, b with
  | CSet x, CSet y => forall s, In s x <-> In s y
  | CRule x, CRule y => rule_eq x y = true /\ forall F dt ed, apply F x dt ed = apply F y dt ed
  | _, _ => False
  end.
Definition attr_same (a b : option cell) : Prop :=
  match a, b with Some x, Some y => cell_same x y | None, None => True | _, _ => False end.

Lemma rule_eq_refl r : rule_eq r r = true.
Proof. now apply rule_eq_tuple. Qed.
Lemma cell_same_refl c : cell_same c c.
Proof. destruct c; cbn; [tauto|]. split; [apply rule_eq_refl|auto]. Qed.
Lemma attr_same_refl a : attr_same a a.
Proof. destruct a; cbn; [apply cell_same_refl|exact I]. Qed.
Lemma cell_eqb_same a b : cell_eqb a b = true -> cell_same a b.
Proof.
  destruct a as [x|x], b as [y|y]; cbn; try discriminate; [apply SpecProofs.set_eqb_iff|].
  intros E. split; [exact E|]. intros F dt ed. now apply rule_eq_apply.
Qed.
Lemma set_attr_same t old new : attr_same (attr_value t (set_attr t old new)) (attr_value t new).
Proof.
  unfold set_attr, differ. destruct old as [a|], new as [b|]; cbn [attr_value]; try apply attr_same_refl.
  destruct (cell_eqb _ _) eqn:E; cbn [negb]; [cbn; now apply cell_eqb_same|apply attr_same_refl].
Qed.

(** what a call asks the categories and the rule of event [e] to be: [None] if
    it asks nothing *)
Definition asked (t : things) (o : aop) (e : nat) : option (option cell * option cell) :=
  let new := List.length (t_events t) in
  let of x := (attr_value t (h_cats x), attr_value t (h_rec x)) in
  match o with
  | ACreate sp => if Nat.eqb e new then Some (of (the_spec t sp)) else None
  | AApply sp e' => if Nat.eqb e e' then Some (of (the_spec t sp)) else None
  | AAssign e' cats rec => if Nat.eqb e e' then Some (attr_value t cats, attr_value t rec) else None
  | AImportNew cats rec => if Nat.eqb e new then Some (Some (CSet cats), option_map CRule rec) else None
  | AImportOld e' cats rec => if Nat.eqb e e' then Some (Some (CSet cats), option_map CRule rec) else None
  | _ => None
  end.

Lemma attr_value_grow t new specs events v : opt_lt v (List.length (t_cells t)) ->
  attr_value (mkThings (t_cells t ++ new) specs events) v = attr_value t v.
Proof. destruct v as [l|]; [|reflexivity]. cbn. intros L. unfold the_cell. cbn. now rewrite app_nth1. Qed.

Lemma ev_rep a b t k x e : the_event (mkThings a b (replace_nth k (t_events t) x)) e
  = if (e =? k)%nat && (k <? List.length (t_events t))%nat then x else the_event t e.
Proof. unfold the_event. cbn [t_events]. apply replace_nth_get. Qed.

Lemma attr_value_cells t t' v : t_cells t' = t_cells t -> attr_value t' v = attr_value t v.
Proof. intros E. unfold attr_value, the_cell. now rewrite E. Qed.

Lemma imported_value t cats rec : let (cells, sp) := imported t cats rec in forall specs events,
  attr_value (mkThings cells specs events) (h_cats sp) = Some (CSet cats) /\ attr_value (mkThings cells specs events) (h_rec sp) = option_map CRule rec.
Proof.
  unfold imported. cbv zeta. destruct rec as [r|]; intros specs events; cbn [h_cats h_rec attr_value option_map]; unfold the_cell; cbn [t_cells].
  - rewrite !app_nth2, Nat.sub_diag by lia. replace (S (List.length (t_cells t)) - List.length (t_cells t))%nat with 1%nat by lia. split; reflexivity.
  - rewrite app_nth2, Nat.sub_diag by lia. split; reflexivity.
Qed.

(** As long as nothing is changed in place, events behave as if categories and
    rules were plain values: a call gives an event what it asks for, and every
    other event keeps what it shows. *)
Theorem C89_as_values t h o e : ahistory t h -> arefers t o -> (forall l c, o <> AChange l c) ->
  match asked t o e with
  | Some (cats, rec) => attr_same (fst (shown (astep t o) e)) cats /\ attr_same (snd (shown (astep t o) e)) rec
  | None => shown (astep t o) e = shown t e
  end.
Proof.
  intros H R NC. pose proof (ahistory_well t h H) as [WS WE]. pose proof (nth_range _ _ e WE) as [RC RR]. fold (the_event t e) in RC, RR.
  destruct o as [c|cats rec|sp|sp e'|e' cats rec|k c|cats rec|e' cats rec]; cbn [asked astep arefers] in *.
  - unfold shown. cbn [t_cells]. change (the_event (mkThings _ _ _) e) with (the_event t e). now rewrite !attr_value_grow.
  - destruct cats; [reflexivity|]. unfold shown. change (the_event (mkThings _ _ _) e) with (the_event t e). now rewrite !attr_value_grow.
  - unfold shown. unfold the_event at 1 3. cbn [t_events]. rewrite nth_app_event. destruct (Nat.eqb_spec e (List.length (t_events t))) as [->|N].
    + cbn [fst snd]. unfold the_event at 1. cbn [t_events]. rewrite !nth_app_event, !Nat.eqb_refl.
      split; (rewrite (attr_value_cells t) by reflexivity); apply attr_same_refl.
    + unfold the_event. cbn [t_events]. rewrite !nth_app_event. destruct (Nat.eqb_spec e (List.length (t_events t))); [congruence|reflexivity].
  - unfold shown. rewrite !ev_rep. destruct (Nat.eqb_spec e e') as [->|N]; cbn [andb]; [|reflexivity].
    destruct (Nat.ltb_spec e' (List.length (t_events t))) as [L|L]; [|lia]. cbn [fst snd set_on h_cats h_rec].
    split; (rewrite (attr_value_cells t) by reflexivity); apply set_attr_same.
  - unfold shown. unfold the_event. cbn [t_events]. rewrite !replace_nth_get.
    destruct (Nat.eqb_spec e e') as [->|N]; cbn [andb]; [|reflexivity].
    destruct (Nat.ltb_spec e' (List.length (t_events t))) as [L|L]; [|lia]. cbn [fst snd h_cats h_rec].
    split; (rewrite (attr_value_cells t) by reflexivity); apply attr_same_refl.
  - now destruct (NC k c).
  - pose proof (imported_shape t cats rec) as X. pose proof (imported_value t cats rec) as V. destruct (imported t cats rec) as [cells sp]. destruct X as ([new ->] & X1 & X2 & X3).
    unfold shown. unfold the_event. cbn [t_events]. rewrite !nth_app_event. destruct (Nat.eqb_spec e (List.length (t_events t))) as [->|N].
    + cbn [fst snd]. destruct (V (t_specs t) (t_events t ++ [sp])) as [-> ->]. split; apply attr_same_refl.
    + fold (the_event t e). now rewrite !attr_value_grow.
  - pose proof (imported_shape t cats rec) as X. pose proof (imported_value t cats rec) as V. destruct (imported t cats rec) as [cells sp]. destruct X as ([new ->] & X1 & X2 & X3).
    unfold shown. unfold the_event. cbn [t_events]. rewrite !replace_nth_get. destruct (Nat.eqb_spec e e') as [->|N]; cbn [andb].
    + destruct (Nat.ltb_spec e' (List.length (t_events t))) as [L|L]; [|lia]. cbn [fst snd set_on h_cats h_rec].
      set (t' := mkThings (t_cells t ++ new) (t_specs t) (t_events t)). destruct (V (t_specs t) (t_events t)) as [V1 V2]. rewrite <- V1, <- V2.
      split; (rewrite (attr_value_cells t') by reflexivity); apply set_attr_same.
    + fold (the_event t e). now rewrite !attr_value_grow.
Qed.
Print Assumptions C89_as_values.

(** * Careful use *)
Definition uses (sp : nat) (o : aop) : Prop := match o with ACreate s | AApply s _ => s = sp | _ => False end.
Definition unheld (t : things) (v : option nat) : Prop :=
  match v with
  | Some l => (forall e, ~ refers_to (the_event t e) l) /\ (forall sp, ~ refers_to (the_spec t sp) l)
  | None => True
  end.

(** a specification is used for one event only, and is given objects that no
    event and no other specification refers to; so is an event, except for the
    objects it has already *)
Definition careful (t : things) (h : list aop) (o : aop) : Prop :=
  match o with
  | ASpecify cats rec => unheld t cats /\ unheld t rec
  | ACreate sp | AApply sp _ => Forall (fun o => ~ uses sp o) h
  | AAssign e cats rec => (unheld t cats \/ cats = h_cats (the_event t e)) /\ (unheld t rec \/ rec = h_rec (the_event t e))
  | _ => True
  end.
Inductive careful_history : things -> list aop -> Prop :=
| careful_init : careful_history t_init []
| careful_step t h o : careful_history t h -> arefers t o -> careful t h o -> careful_history (astep t o) (h ++ [o]).

Lemma careful_is_history t h : careful_history t h -> ahistory t h.
Proof. induction 1; constructor; assumption. Qed.

Definition unused (sp : nat) (h : list aop) : Prop := Forall (fun o => ~ uses sp o) h.

Record tidy (t : things) (h : list aop) : Prop := {
  td_known : forall sp, (List.length (t_specs t) <= sp)%nat -> unused sp h;
  td_events : forall e1 e2 l, e1 <> e2 -> refers_to (the_event t e1) l -> refers_to (the_event t e2) l -> False;
  td_spec : forall sp e l, unused sp h -> refers_to (the_spec t sp) l -> refers_to (the_event t e) l -> False;
  td_specs : forall s1 s2 l, s1 <> s2 -> unused s1 h -> refers_to (the_spec t s1) l -> refers_to (the_spec t s2) l -> False }.

Lemma unused_snoc sp h o : unused sp (h ++ [o]) <-> unused sp h /\ ~ uses sp o.
Proof.
  unfold unused. rewrite Forall_app. split.
  - intros [A B]. inversion B; auto.
  - intros [A B]. split; [exact A|]. now repeat constructor.
Qed.

Lemma spec_in_range t sp l : well t -> refers_to (the_spec t sp) l -> (l < List.length (t_cells t))%nat.
Proof.
  intros [E _] R. pose proof (nth_range _ _ sp E) as [A B]. fold (the_spec t sp) in A, B. destruct R as [R|R]; rewrite R in *; assumption.
Qed.

(** each event refers to what it did, to what a used specification or nothing did, or to a new object *)
Lemma tidy_events t h o : tidy t h -> well t -> arefers t o -> careful t h o ->
  forall e l, refers_to (the_event (astep t o) e) l ->
    refers_to (the_event t e) l
    \/ (exists sp, uses sp o /\ unused sp h /\ refers_to (the_spec t sp) l)
    \/ ((forall e', ~ refers_to (the_event t e') l) /\ (forall sp, ~ refers_to (the_spec t sp) l)).
Proof.
  intros T W R C e l. destruct o as [c|cats rec|sp|sp e'|e' cats rec|k c|cats rec|e' cats rec]; cbn [astep arefers careful uses] in *.
  - auto.
  - destruct cats; auto.
  - unfold the_event at 1. cbn [t_events]. rewrite nth_app_event. destruct (Nat.eqb e _); [|auto]. intros X. right. left. exists sp. auto.
  - unfold the_event at 1. cbn [t_events]. rewrite replace_nth_get. destruct (andb _ _) eqn:B; [|auto]. intros X.
    apply andb_true_iff in B as [B _]. apply Nat.eqb_eq in B. subst e'. apply set_on_refers in X as [X|X]; [|auto]. right. left. exists sp. auto.
  - unfold the_event at 1. cbn [t_events]. rewrite replace_nth_get. destruct (andb _ _) eqn:B; [|auto].
    apply andb_true_iff in B as [B _]. apply Nat.eqb_eq in B. subst e'. destruct C as [C1 C2].
    intros [X|X]; cbn in X; subst; [destruct C1 as [C1|C1]|destruct C2 as [C2|C2]]; auto; left; [left|right]; congruence.
  - auto.
  - pose proof (imported_shape t cats rec) as X. destruct (imported t cats rec) as [cells sp]. destruct X as (_ & _ & X & _).
    unfold the_event at 1. cbn [t_events]. rewrite nth_app_event. destruct (Nat.eqb e _); [|auto]. intros Y. apply X in Y. right. right.
    split; intros q Z; [apply (event_in_range t q l W) in Z|apply (spec_in_range t q l W) in Z]; lia.
  - pose proof (imported_shape t cats rec) as X. destruct (imported t cats rec) as [cells sp]. destruct X as (_ & _ & X & _).
    unfold the_event at 1. cbn [t_events]. rewrite replace_nth_get. destruct (andb _ _) eqn:B; [|auto].
    apply andb_true_iff in B as [B _]. apply Nat.eqb_eq in B. subst e'. intros Y. apply set_on_refers in Y as [Y|Y]; [|auto]. apply X in Y. right. right.
    split; intros q Z; [apply (event_in_range t q l W) in Z|apply (spec_in_range t q l W) in Z]; lia.
Qed.

Lemma tidy_specs t h o : tidy t h -> well t -> arefers t o -> careful t h o ->
  forall sp l, refers_to (the_spec (astep t o) sp) l ->
    refers_to (the_spec t sp) l
    \/ (sp = List.length (t_specs t) /\ (exists c r, o = ASpecify c r) /\ (forall e', ~ refers_to (the_event t e') l) /\ (forall sp, ~ refers_to (the_spec t sp) l)).
Proof.
  intros T W R C sp l. destruct o as [c|cats rec|s|s e'|e' cats rec|k c|cats rec|e' cats rec]; cbn [astep arefers careful uses] in *; auto.
  - assert (F : forall l, (List.length (t_cells t) <= l)%nat -> (forall e', ~ refers_to (the_event t e') l) /\ (forall sp, ~ refers_to (the_spec t sp) l)).
    { intros q L. split; intros k Z; [apply (event_in_range t k q W) in Z|apply (spec_in_range t k q W) in Z]; lia. }
    destruct C as [C1 C2].
    destruct cats as [c|]; unfold the_spec at 1; cbn [t_specs]; rewrite nth_app_event; destruct (Nat.eqb_spec sp (List.length (t_specs t))) as [->|N]; auto;
      intros [X|X]; cbn in X; (right; split; [reflexivity|]; split; [eauto|]).
    + injection X as <-. exact C1.
    + subst rec. exact C2.
    + injection X as <-. apply F. lia.
    + subst rec. exact C2.
  - destruct (imported t cats rec); auto.
  - destruct (imported t cats rec); auto.
Qed.

Lemma uses_one o s1 s2 : uses s1 o -> uses s2 o -> s1 = s2.
Proof. destruct o; cbn; try tauto; congruence. Qed.

Lemma specs_grow t o : (List.length (t_specs t) <= List.length (t_specs (astep t o)))%nat.
Proof.
  destruct o as [c|cats rec|s|s e'|e' cats rec|k c|cats rec|e' cats rec]; cbn [astep]; try (cbn; lia); try (destruct (imported t cats rec); cbn; lia).
  destruct cats; cbn; rewrite app_length; lia.
Qed.

(** which event a specification goes to *)
Lemma uses_event t o sp e : uses sp o -> forall l, refers_to (the_event (astep t o) e) l -> ~ refers_to (the_event t e) l ->
  forall e', e' <> e -> the_event (astep t o) e' = the_event t e'.
Proof.
  destruct o as [c|cats rec|s|s k|k cats rec|k c|cats rec|k cats rec]; cbn [uses astep]; try tauto; intros -> l; unfold the_event; cbn [t_events].
  - rewrite nth_app_event. destruct (Nat.eqb_spec e (List.length (t_events t))) as [->|N]; [|tauto]. intros _ _ e' N. rewrite nth_app_event.
    destruct (Nat.eqb_spec e' (List.length (t_events t))); [congruence|reflexivity].
  - rewrite replace_nth_get. destruct (Nat.eqb_spec e k) as [->|N]; cbn [andb]; [|tauto]. intros _ _ e' N. rewrite replace_nth_get.
    destruct (Nat.eqb_spec e' k); [congruence|reflexivity].
Qed.

Lemma refers_dec x l : {refers_to x l} + {~ refers_to x l}.
Proof.
  assert (D : forall a b : option nat, {a = b} + {a <> b}) by (decide equality; apply Nat.eq_dec).
  unfold refers_to. destruct (D (h_cats x) (Some l)), (D (h_rec x) (Some l)); [left|left|left|right]; tauto.
Qed.

Lemma tidy_step t h o : ahistory t h -> tidy t h -> arefers t o -> careful t h o -> tidy (astep t o) (h ++ [o]).
Proof.
  intros H T R C. pose proof (ahistory_well t h H) as W. pose proof (tidy_events t h o T W R C) as TE. pose proof (tidy_specs t h o T W R C) as TS.
  constructor.
  - intros sp L. pose proof (specs_grow t o). apply unused_snoc. split; [apply (td_known t h T); lia|].
    destruct o; cbn [uses arefers] in *; try tauto; cbn in L; lia.
  - intros e1 e2 l N A B.
    destruct (C89_sharing_arises t h o e1 e2 l H R N A B) as [[A' B']|O]; [exact (td_events t h T e1 e2 l N A' B')|].
    destruct (TE e1 l A) as [A'|[(s1 & U1 & N1 & S1)|[A1 A2]]].
    + destruct (TE e2 l B) as [B'|[(s2 & U2 & N2 & S2)|[B1 _]]]; [exact (td_events t h T e1 e2 l N A' B')|exact (td_spec t h T s2 e1 l N2 S2 A')|exact (B1 _ A')].
    + destruct (refers_dec (the_event t e1) l) as [Y|Y]; [exact (td_spec t h T s1 e1 l N1 S1 Y)|].
      rewrite (uses_event t o s1 e1 U1 l A Y e2 ltac:(congruence)) in B. exact (td_spec t h T s1 e2 l N1 S1 B).
    + destruct o as [c|cats rec|s|s k|k cats rec|k c|cats rec|k cats rec]; cbn [hands_over] in O; try tauto; try exact (A2 _ O).
      cbn [astep] in A, B. unfold the_event in A, B. cbn [t_events] in A, B. rewrite replace_nth_get in A, B.
      destruct (Nat.eqb_spec e1 k) as [->|N1]; cbn [andb] in A; [|exact (A1 _ A)].
      destruct (Nat.eqb_spec e2 k) as [->|N2]; cbn [andb] in B; [congruence|exact (A1 _ B)].
  - intros sp e l U A B. apply unused_snoc in U as [U NU].
    destruct (TS sp l A) as [A'|(-> & (c & r & ->) & E1 & E2)].
    + destruct (TE e l B) as [B'|[(s2 & U2 & N2 & S2)|[_ B2]]]; [exact (td_spec t h T sp e l U A' B')| |exact (B2 _ A')].
      destruct (Nat.eq_dec sp s2) as [->|D]; [tauto|]. exact (td_specs t h T sp s2 l D U A' S2).
    + apply (E1 e). cbn [astep] in B. destruct c; exact B.
  - intros s1 s2 l N U A B. apply unused_snoc in U as [U NU].
    destruct (TS s1 l A) as [A'|(-> & _ & _ & E2)].
    + destruct (TS s2 l B) as [B'|(-> & _ & _ & E2)]; [exact (td_specs t h T s1 s2 l N U A' B')|exact (E2 _ A')].
    + destruct (TS s2 l B) as [B'|(-> & _ & _ & _)]; [exact (E2 _ B')|congruence].
Qed.

Lemma tidy_history t h : careful_history t h -> tidy t h.
Proof.
  induction 1.
  - assert (D : forall n l, ~ refers_to (the_event t_init n) l) by (intros [|n] l; apply no_default).
    assert (D' : forall n l, ~ refers_to (the_spec t_init n) l) by (intros [|n] l; apply no_default).
    constructor; [intros; apply Forall_nil|..].
    + intros e1 e2 l _ X. exact (fun _ => D e1 l X).
    + intros sp e l _ _ X. exact (D e l X).
    + intros s1 s2 l _ _ X. exact (fun _ => D' s1 l X).
  - apply tidy_step; auto. now apply careful_is_history.
Qed.

(** Used carefully, an object changed in place through one event changes no other event. *)
Theorem C89_careful_partial t h e l c : careful_history t h -> refers_to (the_event t e) l ->
  forall e', e' <> e -> shown (astep t (AChange l c)) e' = shown t e'.
Proof.
  intros H R e' N. pose proof (tidy_history t h H) as T. pose proof (careful_is_history t h H) as H'.
  assert (L : arefers t (AChange l c)) by (cbn; exact (event_in_range t e l (ahistory_well t h H') R)).
  destruct (C89_change_exact t h l c H' L e') as [E V]. unfold shown. rewrite E, !V.
  assert (NR : ~ refers_to (the_event t e') l) by (intros X; exact (td_events t h T e' e l N X R)).
  unfold refers_to in NR.
  destruct (h_cats (the_event t e')) as [a|], (h_rec (the_event t e')) as [b|]; repeat (match goal with |- context [Nat.eqb ?x l] => destruct (Nat.eqb_spec x l); [subst; exfalso; tauto|] end); reflexivity.
Qed.
Print Assumptions C89_careful_partial.

(** Two events made from one specification share its category set: adding a
    category to one adds it to the other. *)
Theorem C89_refuted : exists t h l c, ahistory t h /\ refers_to (the_event t 0) l /\ shown (astep t (AChange l c)) 1 <> shown t 1.
Proof.
  exists (astep (astep (astep (astep t_init (ANew (CSet ["a"%string]))) (ASpecify (Some 0%nat) None)) (ACreate 0)) (ACreate 0)),
    [ANew (CSet ["a"%string]); ASpecify (Some 0%nat) None; ACreate 0; ACreate 0], 0%nat, (CSet ["a"%string; "b"%string]).
  split; [|split; [left; reflexivity|vm_compute; discriminate]].
  change [ANew (CSet ["a"%string]); ASpecify (Some 0%nat) None; ACreate 0; ACreate 0] with (((([] ++ [ANew (CSet ["a"%string])]) ++ [ASpecify (Some 0%nat) None]) ++ [ACreate 0]) ++ [ACreate 0]).
  repeat constructor.
Qed.
Print Assumptions C89_refuted.

(** a careful history with events made, updated and imported *)
Example C89_case : exists t h, careful_history t h /\ List.length (t_events t) = 2%nat
  /\ shown t 0 = (Some (CSet ["x"%string]), None) /\ shown t 1 = (Some (CSet ["y"%string]), None)
  /\ refers_to (the_event t 0) 0
  /\ shown (astep t (AChange 0 (CSet ["z"%string]))) 0 = (Some (CSet ["z"%string]), None)
  /\ shown (astep t (AChange 0 (CSet ["z"%string]))) 1 = (Some (CSet ["y"%string]), None).
Proof.
  exists (astep (astep (astep (astep (astep t_init (ANew (CSet ["x"%string]))) (ASpecify (Some 0%nat) None)) (ACreate 0)) (AImportNew ["q"%string] None)) (AImportOld 1 ["y"%string] None)),
    ((((([] ++ [ANew (CSet ["x"%string])]) ++ [ASpecify (Some 0%nat) None]) ++ [ACreate 0]) ++ [AImportNew ["q"%string] None]) ++ [AImportOld 1 ["y"%string] None]).
  split; [|repeat split; vm_compute; auto].
  assert (D : forall n l, ~ refers_to (nth n [] (mkHolder None None)) l) by (intros [|n] l; apply no_default).
  repeat constructor; cbn; try (intros; apply D); try (intros [|[|n]] [X|X]; cbn in X; discriminate); auto.
Qed.
