(** Property theorems C155: the attendee lists of specifications (cal.py 57-105,
    139-146, 607-609). *)
From Verif Require Import Base PyDate Recurrent CalTime Event Storage ICal System SystemProofs Defaults PropEvent PropSystem.

(** ** Specification *)
(** the specifications made so far, in order: their arguments, and the list given *)
Definition specs_made (h : list dop) : list (spec * option nat) :=
  flat_map (fun o => match o with DSpec sp a => [(sp, a)] | _ => [] end) h.
(** the lists the caller made, in order *)
Definition lists_made (h : list dop) : list people :=
  flat_map (fun o => match o with DList l => [l] | _ => [] end) h.

(** the calls are possible: what they refer to exists, and calls that take a
    specification do so by one of the constructors *)
Definition possible (h : list dop) (o : dop) : Prop :=
  let given (a : option nat) := forall i, a = Some i -> (i < List.length (lists_made h))%nat in
  match o with
  | DListChange i _ => (i < List.length (lists_made h))%nat
  | DSpec _ a | DCreate _ _ a _ | DAttendeeCreate _ _ a _ => given a
  | DChange k _ | DCreateFrom _ k _ | DSet _ k => (k < List.length (specs_made h))%nat
  | _ => True
  end.
Inductive executed : list dop -> Prop :=
| executed_nil : executed []
| executed_snoc h o : executed h -> possible h o -> executed (h ++ [o]).

Definition same_list (a b : option nat) : {a = b} + {a <> b}.
Proof. decide equality. apply Nat.eq_dec. Defined.

(** the changes made to the list [a] (the caller's, or that of everybody who gave
    none), [made] being the specifications of the whole history *)
Definition changes (made : list (spec * option nat)) (a : option nat) (h : list dop) : list (people -> people) :=
  flat_map (fun o => match o with
    | DListChange i f => if same_list (Some i) a then [f] else []
    | DChange k f => match nth_error made k with Some (_, b) => if same_list b a then [f] else [] | None => [] end
    | _ => [] end) h.

(** what the list holds after [h] *)
Definition holds (h : list dop) (a : option nat) : people :=
  fold_left (fun l f => f l) (changes (specs_made h) a h)
    (match a with Some i => nth i (lists_made h) [] | None => [] end).

(** the arguments given, with these attendees *)
Definition given_with (sp : spec) (l : people) : spec :=
  {| s_attendees := l; s_organizer := s_organizer sp; s_document := s_document sp; s_access := s_access sp;
     s_transparent := s_transparent sp; s_categories := s_categories sp; s_allday := s_allday sp;
     s_recurrence := s_recurrence sp; s_status := s_status sp; s_location := s_location sp;
     s_description := s_description sp; s_title := s_title sp; s_duration := s_duration sp; s_dtstart := s_dtstart sp |}.
(** the call of System.v that a call amounts to: attendees as they are now *)
Definition amounts_to (h : list dop) (o : dop) : option op :=
  let filled sp a := given_with sp (holds h a) in
  let made k (f : spec -> op) := match nth_error (specs_made h) k with Some (sp, a) => Some (f (filled sp a)) | None => None end in
  match o with
  | DCreateFrom uid k now => made k (fun sp => OCreate uid sp now)
  | DSet r k => made k (OSpecify r)
  | DCreate uid sp a now => Some (OCreate uid (filled sp a) now)
  | DAttendeeCreate i sp a now => Some (OAttendeeCreate i (filled sp a) now)
  | DOther q => Some q
  | _ => None
  end.

(** ** Proofs *)
Lemma specs_made_snoc h o : specs_made (h ++ [o]) = specs_made h ++ specs_made [o].
Proof. unfold specs_made. apply flat_map_app. Qed.
Lemma lists_made_snoc h o : lists_made (h ++ [o]) = lists_made h ++ lists_made [o].
Proof. unfold lists_made. apply flat_map_app. Qed.

Definition exists_list (h : list dop) (a : option nat) : Prop := forall i, a = Some i -> (i < List.length (lists_made h))%nat.

Lemma exists_later h o a : exists_list h a -> exists_list (h ++ [o]) a.
Proof. intros E i X. rewrite lists_made_snoc, app_length. specialize (E i X). lia. Qed.

Lemma specs_exist h : executed h -> forall k sp a, nth_error (specs_made h) k = Some (sp, a) -> exists_list h a.
Proof.
  induction 1 as [|h o E IH P]; intros k sp a N; [destruct k; discriminate|]. rewrite specs_made_snoc in N.
  destruct (le_lt_dec (List.length (specs_made h)) k) as [L|L].
  - rewrite nth_error_app2 in N by exact L. apply exists_later. destruct o; cbn in N; try (destruct (k - _)%nat; discriminate).
    destruct (k - List.length (specs_made h))%nat as [|[|j]]; try discriminate. injection N as <- <-. exact P.
  - rewrite nth_error_app1 in N by exact L. apply exists_later. now apply (IH k sp a).
Qed.

Lemma changes_app m a h1 h2 : changes m a (h1 ++ h2) = changes m a h1 ++ changes m a h2.
Proof. unfold changes. apply flat_map_app. Qed.

Lemma changes_more h : executed h -> forall x a, changes (specs_made h ++ x) a h = changes (specs_made h) a h.
Proof.
  induction 1 as [|h o E IH P]; intros x a; [reflexivity|]. rewrite !changes_app, specs_made_snoc, <- app_assoc, !IH. f_equal.
  unfold changes. cbn [flat_map]. destruct o; try reflexivity. cbn in P. rewrite !nth_error_app1 by exact P. reflexivity.
Qed.

Lemma holds_snoc h o a : executed h -> possible h o -> exists_list h a ->
  holds (h ++ [o]) a = fold_left (fun l f => f l) (changes (specs_made h) a [o]) (holds h a).
Proof.
  intros E P X. unfold holds. rewrite specs_made_snoc, changes_app, fold_left_app, changes_more by exact E.
  assert (C : changes (specs_made h ++ specs_made [o]) a [o] = changes (specs_made h) a [o]).
  { unfold changes. cbn [flat_map]. destruct o; try reflexivity. cbn in P. rewrite nth_error_app1 by exact P. reflexivity. }
  rewrite C. f_equal. f_equal. destruct a as [i|]; [|reflexivity]. rewrite lists_made_snoc. apply app_nth1. now apply X.
Qed.

Lemma unchanged_before h : executed h -> forall i, (List.length (lists_made h) <= i)%nat -> changes (specs_made h) (Some i) h = [].
Proof.
  induction 1 as [|h o E IH P]; intros i L; [reflexivity|]. rewrite lists_made_snoc, app_length in L.
  rewrite changes_app, specs_made_snoc, changes_more by exact E. rewrite IH by lia. cbn [app].
  unfold changes. cbn [flat_map]. destruct o; try reflexivity; cbn in P.
  - destruct (same_list (Some i0) (Some i)) as [X|X]; [|reflexivity]. injection X as ->. lia.
  - rewrite nth_error_app1 by exact P. destruct (nth_error (specs_made h) k) as [[sp b]|] eqn:N; [|reflexivity].
    destruct (same_list b (Some i)) as [X|X]; [|reflexivity]. pose proof (specs_exist h E k sp b N i X). lia.
Qed.

Lemma replace_other {A} (l : list A) x d : forall n m, n <> m -> nth m (replace_nth n l x) d = nth m l d.
Proof.
  induction l as [|y l IH]; intros n m N; [now destruct n|]. destruct n as [|n], m as [|m]; cbn; try reflexivity; [now elim N|]. apply IH. lia.
Qed.
Lemma replace_same {A} (l : list A) x d : forall n, (n < List.length l)%nat -> nth n (replace_nth n l x) d = x.
Proof. induction l as [|y l IH]; intros n L; [cbn in L; lia|]. destruct n as [|n]; cbn; [reflexivity|]. apply IH. cbn in L. lia. Qed.

Lemma list_of_inj a b : list_of a = list_of b -> a = b.
Proof. destruct a, b; cbn; congruence. Qed.

Definition tracked (h : list dop) (d : dstate) : Prop :=
  List.length (d_lists d) = S (List.length (lists_made h))
  /\ d_specs d = map (fun x => (fst x, list_of (snd x))) (specs_made h)
  /\ forall a, exists_list h a -> list_at d (list_of a) = holds h a.

Lemma on_sys_lists cf d q : d_lists (fst (fst (let '(s, n, x) := step cf (d_sys d) q in (mkD (d_lists d) (d_specs d) s, n, x)))) = d_lists d
  /\ d_specs (fst (fst (let '(s, n, x) := step cf (d_sys d) q in (mkD (d_lists d) (d_specs d) s, n, x)))) = d_specs d.
Proof. destruct (step cf (d_sys d) q) as [[s n] x]. split; reflexivity. Qed.

Lemma change_at h d b f : tracked h d -> exists_list h b -> forall a, exists_list h a ->
  nth (list_of a) (replace_nth (list_of b) (d_lists d) (f (list_at d (list_of b)))) [] = if same_list b a then f (holds h a) else holds h a.
Proof.
  intros (L & _ & H) B a A. destruct (same_list b a) as [<-|N].
  - rewrite replace_same; [now rewrite H|]. rewrite L. destruct b as [i|]; cbn; [|lia]. specialize (B i eq_refl). lia.
  - rewrite replace_other; [now apply H|]. intros X. apply N. now apply list_of_inj.
Qed.

Lemma run_tracked cf h : executed h -> tracked h (drun cf h).
Proof.
  induction 1 as [|h o E IH P].
  - split; [reflexivity|]. split; [reflexivity|]. intros [i|] X; [|reflexivity]. specialize (X i eq_refl). cbn in X. lia.
  - unfold drun. rewrite fold_left_app. cbn [fold_left]. fold (drun cf h). set (d := drun cf h) in *.
    pose proof IH as (L & S & H).
    assert (EX : forall a, lists_made [o] = [] -> exists_list (h ++ [o]) a -> exists_list h a).
    { intros a N X i Y. specialize (X i Y). rewrite lists_made_snoc, N, app_nil_r in X. exact X. }
    assert (SYS : forall q, lists_made [o] = [] -> specs_made [o] = [] -> (forall a, changes (specs_made h) a [o] = []) ->
      tracked (h ++ [o]) (fst (fst (let '(s, n, x) := step cf (d_sys d) q in (mkD (d_lists d) (d_specs d) s, n, x))))).
    { intros q N1 N2 N3. destruct (on_sys_lists cf d q) as [A B]. unfold tracked, list_at. rewrite A, B, lists_made_snoc, specs_made_snoc, N1, N2, !app_nil_r.
      split; [exact L|]. split; [exact S|]. intros a X. rewrite holds_snoc by (try assumption; now apply EX). rewrite N3. cbn. apply H. now apply EX. }
    destruct o; try (apply SYS; reflexivity); cbn [dstep fst snd].
    + split; [|split].
      * cbn. rewrite app_length, lists_made_snoc, app_length, L. cbn. lia.
      * cbn. rewrite S, specs_made_snoc. cbn. now rewrite app_nil_r.
      * intros a X. unfold list_at. cbn [d_lists]. destruct a as [i|].
        -- specialize (X i eq_refl). rewrite lists_made_snoc, app_length in X. cbn in X.
           destruct (Nat.eq_dec i (List.length (lists_made h))) as [->|N].
           ++ cbn [list_of]. rewrite app_nth2 by lia. rewrite L, Nat.sub_diag. cbn. unfold holds.
              rewrite specs_made_snoc, changes_app, changes_more by exact E. rewrite unchanged_before by (exact E || lia). cbn.
              rewrite lists_made_snoc, app_nth2 by lia. now rewrite Nat.sub_diag.
           ++ assert (X' : exists_list h (Some i)) by (intros j J; injection J as <-; lia).
              rewrite holds_snoc by assumption. cbn [changes flat_map app fold_left]. rewrite app_nth1 by (cbn; lia). now apply H.
        -- assert (X' : exists_list h None) by discriminate. rewrite holds_snoc by assumption. cbn [changes flat_map app fold_left].
           rewrite app_nth1 by (cbn; lia). now apply H.
    + split; [|split].
      * cbn [d_lists]. rewrite replace_nth_length, lists_made_snoc, app_length, L. cbn. lia.
      * cbn. rewrite S, specs_made_snoc. cbn. now rewrite app_nil_r.
      * intros a X. apply EX in X; [|reflexivity]. rewrite holds_snoc by assumption. unfold list_at at 1. cbn [d_lists].
        rewrite (change_at h d (Some i) f IH) by (try exact X; intros j J; injection J as <-; exact P).
        cbn [changes flat_map]. destruct (same_list (Some i) a); reflexivity.
    + split; [|split].
      * cbn. rewrite lists_made_snoc, app_length, L. cbn. lia.
      * cbn. rewrite S, specs_made_snoc, map_app. reflexivity.
      * intros b X. apply EX in X; [|reflexivity]. rewrite holds_snoc by assumption. cbn. now apply H.
    + cbn in P. destruct (nth_error (specs_made h) k) as [[sp b]|] eqn:N; [|apply nth_error_None in N; lia].
      assert (ND : nth_error (d_specs d) k = Some (sp, list_of b)) by (rewrite S; now rewrite nth_error_map, N). rewrite ND. cbn [fst].
      assert (B : exists_list h b) by now apply (specs_exist h E k sp). split; [|split].
      * cbn [d_lists]. rewrite replace_nth_length, lists_made_snoc, app_length, L. cbn. lia.
      * cbn. rewrite S, specs_made_snoc. cbn. now rewrite app_nil_r.
      * intros a X. apply EX in X; [|reflexivity]. rewrite holds_snoc by assumption. unfold list_at at 1. cbn [d_lists].
        rewrite (change_at h d b f IH) by assumption.
        cbn [changes flat_map]. rewrite N. destruct (same_list b a); reflexivity.
Qed.

Lemma spec_now cf h k sp a : executed h -> nth_error (specs_made h) k = Some (sp, a) -> spec_at (drun cf h) k = with_people sp (holds h a).
Proof.
  intros E N. destruct (run_tracked cf h E) as (_ & S & H). unfold spec_at. rewrite S.
  erewrite nth_error_nth by (rewrite nth_error_map, N; reflexivity). cbn [fst snd]. rewrite H; [reflexivity|]. now apply (specs_exist h E k sp).
Qed.

(** ** C155.  A call that makes or changes an event does what it would do with the
    list of attendees as it is at that moment: the list given as changed since,
    or, if none was given, everything that was done to the list of any
    specification made without one. *)
Theorem C155_exact : forall cf h o, executed h -> possible h o ->
  let d := drun cf h in
  match amounts_to h o with
  | Some q => let '(s, n, x) := step cf (d_sys d) q in dstep cf d o = (mkD (d_lists d) (d_specs d) s, n, x)
  | None => d_sys (fst (fst (dstep cf d o))) = d_sys d /\ snd (fst (dstep cf d o)) = [] /\ snd (dstep cf d o) = Ok tt
  end.
Proof.
  intros cf h o E P. cbv zeta. destruct (run_tracked cf h E) as (L & S & H). destruct o; cbn [amounts_to dstep].
  - repeat split.
  - repeat split.
  - repeat split.
  - destruct (nth_error (d_specs (drun cf h)) k) as [[? ?]|]; repeat split.
  - cbn in P. destruct (nth_error (specs_made h) k) as [[sp a]|] eqn:N; [|apply nth_error_None in N; lia].
    rewrite (spec_now cf h k sp a E N). now destruct (step cf _ _) as [[s n] x].
  - cbn in P. destruct (nth_error (specs_made h) k) as [[sp a]|] eqn:N; [|apply nth_error_None in N; lia].
    rewrite (spec_now cf h k sp a E N). now destruct (step cf _ _) as [[s n] x].
  - rewrite H by exact P. now destruct (step cf _ _) as [[s n] x].
  - rewrite H by exact P. now destruct (step cf _ _) as [[s n] x].
  - now destruct (step cf _ _) as [[s n] x].
Qed.
Print Assumptions C155_exact.

(** ** If nobody touches the list of a specification made without attendees, that
    list stays empty: such specifications name nobody. *)
Theorem C155_nobody : forall h, 
  (forall k sp f, In (DChange k f) h -> nth_error (specs_made h) k <> Some (sp, None)) -> holds h None = [].
Proof.
  intros h H. unfold holds. replace (changes (specs_made h) None h) with (@nil (people -> people)); [reflexivity|]. symmetry.
  unfold changes. revert H. generalize (specs_made h) as m. induction h as [|o h IH]; intros m H; [reflexivity|]. cbn [flat_map].
  rewrite IH by (intros k sp f I; apply (H k sp f); now right). rewrite app_nil_r. destruct o; try reflexivity.
  destruct (nth_error m k) as [[sp b]|] eqn:N; [|reflexivity].
  destruct (same_list b None) as [->|_]; [|reflexivity]. now elim (H k sp f (or_introl eq_refl)).
Qed.
Print Assumptions C155_nobody.

(** ** A change reaches what is made from that list and nothing else: lists the
    caller gave are apart from each other and from the one of the others. *)
Theorem C155_apart : forall h k f a sp b, executed h -> nth_error (specs_made h) k = Some (sp, b) -> 
  (forall i, a = Some i -> (i < List.length (lists_made h))%nat) ->
  holds (h ++ [DChange k f]) a = if same_list b a then f (holds h a) else holds h a.
Proof.
  intros h k f a sp b E N A. assert (P : possible h (DChange k f)) by (cbn; apply nth_error_Some; congruence).
  rewrite holds_snoc by assumption. cbn [changes flat_map]. rewrite N. destruct (same_list b a); reflexivity.
Qed.
Print Assumptions C155_apart.

(** ** It is not so that an event made without attendees has no participants but its
    organizer.  Somebody else appended to the attendees of a specification of
    their own, which they had made without attendees. *)
Definition plain_spec (t : Z) (org : attendee) : spec := p_spec t (Some HOUR) false org [].
Definition append (x : attendee * string * option string) : people -> people := fun l => l ++ [x].
Theorem C155_default_shared : exists h uid sp now s e,
  executed h /\ s_attendees sp = [] /\ s_organizer sp = ann
  /\ fst (fst (dstep cf0 (drun cf0 h) (DCreate (Some uid) sp None now))) = mkD (d_lists (drun cf0 h)) (d_specs (drun cf0 h)) s
  /\ dget (sys_store s) uid = Some e /\ get_status (obj s e) bob = Ok (Some "TENTATIVE"%string).
Proof.
  exists [DSpec (plain_spec (p_at 732500 9) None) None; DChange 0 (append (bob, "CHAIR", Some "TENTATIVE")%string)], "mine"%string,
    (plain_spec (p_at 732501 9) ann), 0, (d_sys (fst (fst (dstep cf0 (drun cf0
      [DSpec (plain_spec (p_at 732500 9) None) None; DChange 0 (append (bob, "CHAIR", Some "TENTATIVE")%string)])
      (DCreate (Some "mine"%string) (plain_spec (p_at 732501 9) ann) None 0))))), 0%nat.
  split. { apply (executed_snoc [_]); [apply (executed_snoc []); [constructor|intros i X; discriminate X]|cbn; lia]. }
  split; [reflexivity|]. split; [reflexivity|]. split; [vm_compute; reflexivity|]. split; vm_compute; reflexivity.
Qed.
Print Assumptions C155_default_shared.

(** two lists, two specifications with one of them, one without; changes of both kinds *)
Definition busy_office : list dop :=
  [DList [(ann, "CHAIR", Some "ACCEPTED")]; DList []; DSpec (plain_spec (p_at 732500 9) None) (Some 0%nat);
   DSpec (plain_spec (p_at 732501 9) None) None; DSpec (plain_spec (p_at 732502 9) bob) (Some 0%nat);
   DChange 0 (append (bob, "CHAIR", Some "TENTATIVE")); DListChange 1 (append (bob, "CHAIR", Some "DECLINED"));
   DCreateFrom (Some "a") 2 0; DChange 2 (fun _ => []); DSet 0 0]%string.
Example C155_case : executed busy_office
  /\ holds (firstn 7 busy_office) (Some 0%nat) = [(ann, "CHAIR", Some "ACCEPTED"); (bob, "CHAIR", Some "TENTATIVE")]%string
  /\ holds busy_office (Some 0%nat) = [] /\ holds busy_office (Some 1%nat) = [(bob, "CHAIR", Some "DECLINED")]%string
  /\ holds busy_office None = []
  /\ (forall k sp f, In (DChange k f) busy_office -> nth_error (specs_made busy_office) k <> Some (sp, None))
  /\ amounts_to (firstn 7 busy_office) (DCreateFrom (Some "a"%string) 2 0)
     = Some (OCreate (Some "a"%string) (p_spec (p_at 732502 9) (Some HOUR) false bob [(ann, "CHAIR", Some "ACCEPTED"); (bob, "CHAIR", Some "TENTATIVE")]%string) 0).
Proof.
  split.
  { assert (X : forall h o, executed h -> possible h o -> executed (h ++ [o])) by exact executed_snoc. unfold busy_office.
    do 10 (match goal with |- executed ?l => let h := eval cbv [removelast] in (removelast l) in apply (X h) end; [|cbn; intros; try lia; try (match goal with H : Some _ = Some _ |- _ => injection H as <- end; lia); try discriminate; auto]).
    constructor. }
  do 4 (split; [vm_compute; reflexivity|]). split.
  - intros k sp f I. unfold busy_office in I. cbn in I.
    decompose [or] I; try discriminate; try contradiction; match goal with H : DChange _ _ = DChange _ _ |- _ => injection H as <- _ end; cbn; intros X; discriminate X.
  - vm_compute. reflexivity.
Qed.
