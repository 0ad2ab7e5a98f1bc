(** Lemmas for C120: the whole system does not depend on the order in which its
    dictionaries are iterated. *)
From Verif Require Import Base PyDate Recurrent Util CalTime Event Storage ICal System.
From Verif Require Import TimeProofs UtilProofs EventProofs SystemProofs QueryProofs ImportProofs ImportContent ShuffleProofs IdProofs.
From Coq Require Import Sorting.Permutation.

(** ** states *)
Lemma forall2_nth {A B} (R : A -> B -> Prop) l1 l2 d1 d2 n : Forall2 R l1 l2 -> R d1 d2 -> R (nth n l1 d1) (nth n l2 d2).
Proof. intros F D. revert n. induction F as [|a b l1 l2 H F IH]; intros [|n]; cbn; auto. Qed.

Lemma forall2_replace {A B} (R : A -> B -> Prop) l1 l2 a b n : Forall2 R l1 l2 -> R a b ->
  Forall2 R (replace_nth n l1 a) (replace_nth n l2 b).
Proof. intros F H. revert n. induction F as [|x y l1 l2 X F IH]; intros [|n]; cbn; constructor; auto. Qed.

Lemma forall2_flip {A B} (R : A -> B -> Prop) (Q : B -> A -> Prop) l1 l2 : (forall a b, R a b -> Q b a) ->
  Forall2 R l1 l2 -> Forall2 Q l2 l1.
Proof. intros H. induction 1; constructor; auto. Qed.

Lemma forall2_trans {A} (R : A -> A -> Prop) l1 l2 l3 : (forall a b c, R a b -> R b c -> R a c) ->
  Forall2 R l1 l2 -> Forall2 R l2 l3 -> Forall2 R l1 l3.
Proof.
  intros H F. revert l3. induction F as [|a b l1 l2 X F IH]; intros l3 G; inversion G; subst; constructor; eauto.
Qed.

Lemma sys_sym s1 s2 : sys_alike s1 s2 -> sys_alike s2 s1.
Proof.
  intros (H & D & S & C). split; [|split; [|split]].
  - eapply forall2_flip; [|exact H]. apply alike_sym.
  - now apply same_sym.
  - now apply same_sym.
  - eapply forall2_flip; [|exact C]. intros a b. apply same_sym.
Qed.

Lemma sys_trans s1 s2 s3 : sys_alike s1 s2 -> sys_alike s2 s3 -> sys_alike s1 s3.
Proof.
  intros (H & D & S & C) (H' & D' & S' & C'). split; [|split; [|split]].
  - eapply forall2_trans; [apply alike_trans|eassumption|eassumption].
  - eapply same_trans; eassumption.
  - eapply same_trans; eassumption.
  - eapply forall2_trans; [intros a b c; apply same_trans|eassumption|eassumption].
Qed.

Lemma sys_init : sys_alike init init.
Proof. repeat split; constructor. Qed.

Lemma obj_alike s1 s2 r : sys_alike s1 s2 -> event_alike (obj s1 r) (obj s2 r).
Proof. intros (H & _). unfold obj. apply forall2_nth; [exact H|apply blank_alike]. Qed.

Lemma cal_same s1 s2 c : sys_alike s1 s2 -> same_dict (cal s1 c) (cal s2 c).
Proof. intros (_ & _ & _ & C). unfold cal. apply forall2_nth; [exact C|]. split; constructor. Qed.

Lemma heap_length s1 s2 : sys_alike s1 s2 -> List.length (sys_heap s1) = List.length (sys_heap s2).
Proof. intros (H & _). clear -H. induction H; cbn; congruence. Qed.

Lemma get_event_alike s1 s2 u : sys_alike s1 s2 -> get_event s1 u = get_event s2 u.
Proof. intros (_ & D & _). unfold get_event. now rewrite (same_get _ _ u D). Qed.

Lemma has_event_alike s1 s2 u : sys_alike s1 s2 -> has_event s1 u = has_event s2 u.
Proof. intros H. unfold has_event. now rewrite (get_event_alike s1 s2 u H). Qed.

Lemma knows_alike s1 s2 i : sys_alike s1 s2 -> source_knows s1 i = source_knows s2 i.
Proof. intros (_ & _ & S & _). unfold source_knows. now rewrite (same_get _ _ i S). Qed.

Lemma source_get_alike s1 s2 i : sys_alike s1 s2 -> source_get s1 i = source_get s2 i.
Proof. intros (_ & _ & S & _). unfold source_get. now rewrite (same_get _ _ i S). Qed.

Lemma store_inv_alike s1 s2 : sys_alike s1 s2 -> store_inv s1 -> store_inv s2.
Proof.
  intros H [N I]. assert (D : same_dict (sys_store s1) (sys_store s2)) by apply H. split; [eapply same_nodup2; exact D|].
  intros u r. rewrite <- (same_get _ _ u D), <- (heap_length s1 s2 H). intros X. destruct (I u r X) as (I1 & I2 & I3).
  split; [exact I1|]. rewrite <- (alike_uid _ _ (obj_alike s1 s2 r H)). split; [exact I2|].
  intros r'. rewrite <- (alike_uid _ _ (obj_alike s1 s2 r' H)). apply I3.
Qed.

Lemma stored_alike s1 s2 : sys_alike s1 s2 -> listed_alike event_alike (stored s1) (stored s2).
Proof.
  intros H. assert (D : same_dict (sys_store s1) (sys_store s2)) by apply H.
  exists (map (fun kv => obj s1 (snd kv)) (sys_store s2)). split.
  - unfold stored. apply Permutation_map, D.
  - unfold stored. clear D. induction (sys_store s2) as [|kv l IH]; cbn; [constructor|]. constructor; [now apply obj_alike|exact IH].
Qed.

(** ** calendars *)
Lemma rmap_ext {A B} (f g : A -> res B) l : (forall x, f x = g x) -> rmap f l = rmap g l.
Proof. intros H. induction l as [|a l IH]; [reflexivity|]. cbn. now rewrite H, IH. Qed.

Lemma cal_attendees_alike s1 s2 c : sys_alike s1 s2 -> ends_alike (@Permutation attendee) (cal_attendees s1 c) (cal_attendees s2 c).
Proof.
  intros H. unfold cal_attendees. rewrite (rmap_ext (source_get s2) (source_get s1)) by (intros i; symmetry; now apply source_get_alike).
  apply (map_alike eq); [now intros a b <-|]. apply listed_eq, same_keys. now apply cal_same.
Qed.

Lemma cal_attendees_some s c l : cal_attendees s c = Ok l -> Forall (fun a => a <> None) l.
Proof.
  unfold cal_attendees. revert l. induction (dkeys (cal s c)) as [|i k IH]; intros l E; cbn [rmap] in E.
  - injection E as <-. constructor.
  - unfold source_get in E at 1. destruct (dget (sys_source s) i); [|discriminate]. cbn [rbind] in E.
    destruct (rmap (source_get s) k) as [r| |]; try discriminate. injection E as <-. constructor; [discriminate|auto].
Qed.

Definition match_one (st ro : option string) (e : event) (a : attendee) : bool :=
  match get_status e a, get_role e a with
  | Ok (Some s), Ok r =>
      negb (match st with Some x => negb (opt_str_eqb (Some x) (Some s)) | None => false end)
      && negb (match ro with Some x => negb (opt_str_eqb (Some x) r) | None => false end)
  | _, _ => false
  end.

Lemma match_attendees_some c e l : Forall (fun a => a <> None) l ->
  match_attendees c e l = Ok (existsb (match_one (c_status c) (c_role c) e) l).
Proof.
  induction 1 as [|a l H F IH]; [reflexivity|]. cbn [match_attendees existsb]. unfold has_attendee, match_one.
  destruct a as [i|]; [|now elim H]. unfold get_status, get_role, attendee_id. cbn [rbind].
  destruct (dget (e_state e) i) as [s|]; cbn [negb rbind]; [|exact IH].
  destruct (c_status c) as [x|]; [destruct (opt_str_eqb (Some x) (Some s))|]; cbn [negb andb rbind orb];
    (destruct (c_role c) as [y|]; [destruct (opt_str_eqb (Some y) (dget (e_role e) i))|]); cbn [negb andb rbind orb];
    try exact IH; reflexivity.
Qed.

Lemma existsb_perm {A} (f : A -> bool) l1 l2 : Permutation l1 l2 -> existsb f l1 = existsb f l2.
Proof.
  induction 1 as [|x l l' P IH|x y l|l l' l'' P1 IH1 P2 IH2]; cbn; try congruence.
  rewrite !Bool.orb_assoc. f_equal. apply Bool.orb_comm.
Qed.

Lemma forall_perm {A} (P : A -> Prop) l1 l2 : Permutation l1 l2 -> Forall P l1 -> Forall P l2.
Proof. intros Q F. apply Forall_forall. intros x X. rewrite Forall_forall in F. apply F. eapply Permutation_in; [symmetry; exact Q|exact X]. Qed.

(** the criteria of a calendar's query, for two orders of its attendees *)
Lemma restrict_alike cr l1 l2 e : Permutation l1 l2 -> Forall (fun a => a <> None) l1 ->
  match_criteria (restrict_attendees cr l1) e = match_criteria (restrict_attendees cr l2) e.
Proof.
  intros P F1. pose proof (forall_perm _ _ _ P F1) as F2.
  assert (M : forall c1 c2, c_status c1 = c_status c2 -> c_role c1 = c_role c2 ->
            match_attendees c1 e l1 = match_attendees c2 e l2).
  { intros c1 c2 D E. rewrite !match_attendees_some by assumption. rewrite D, E. now rewrite (existsb_perm _ _ _ P). }
  assert (SAME : forall c1 c2 l, c_status c1 = c_status c2 -> c_role c1 = c_role c2 ->
            match_attendees c1 e l = match_attendees c2 e l).
  { intros c1 c2 l A B. induction l as [|a l IH]; [reflexivity|]. cbn [match_attendees]. rewrite A, B, IH. reflexivity. }
  unfold restrict_attendees, match_criteria. destruct cr as [cr|].
  - cbn [c_categories c_organizer c_attendees clone norm_attendees].
    destruct (match or_list (c_categories cr) None with Some _ => _ | None => _ end); [reflexivity|].
    destruct (match or_obj (c_organizer cr) None with Some _ => _ | None => _ end) as [[|]| |]; cbn [rbind]; try reflexivity.
    destruct (c_attendees cr) as [[|a l]|]; cbn [or_list].
    + now apply M.
    + now apply SAME.
    + now apply M.
  - cbn. now apply M.
Qed.

Lemma cal_events_alike s1 s2 c p cr : sys_alike s1 s2 ->
  ends_alike (listed_alike event_alike) (cal_events s1 c p cr) (cal_events s2 c p cr).
Proof.
  intros H. unfold cal_events. pose proof (cal_attendees_alike s1 s2 c H) as A. pose proof (cal_attendees_some s1 c) as SO.
  destruct (cal_attendees s1 c) as [l1| |], (cal_attendees s2 c) as [l2| |]; cbn [ends_alike] in A; try contradiction; try exact I.
  cbn [rbind]. specialize (SO l1 eq_refl). unfold calendar_events.
  assert (E : get_events (stored s2) p (Some (restrict_attendees cr l2)) = get_events (stored s2) p (Some (restrict_attendees cr l1))).
  { unfold get_events, matching_events. f_equal. clear -A SO. induction (stored s2) as [|e l IH]; [reflexivity|].
    cbn [rfilter]. now rewrite IH, (restrict_alike cr l1 l2 e A SO). }
  rewrite E. apply get_events_alike. now apply stored_alike.
Qed.

Lemma calendar_occurrences_alike F s1 s2 c p cr : sys_alike s1 s2 ->
  ends_alike (listed_alike occ_alike)
    (let* l := cal_attendees s1 c in calendar_occurrences F (stored s1) l p cr)
    (let* l := cal_attendees s2 c in calendar_occurrences F (stored s2) l p cr).
Proof.
  intros H. pose proof (cal_attendees_alike s1 s2 c H) as A. pose proof (cal_attendees_some s1 c) as SO.
  destruct (cal_attendees s1 c) as [l1| |], (cal_attendees s2 c) as [l2| |]; cbn [ends_alike] in A; try contradiction; try exact I.
  cbn [rbind]. specialize (SO l1 eq_refl). unfold calendar_occurrences.
  assert (E : get_occurrences F (stored s2) p (Some (restrict_attendees cr l2)) = get_occurrences F (stored s2) p (Some (restrict_attendees cr l1))).
  { unfold get_occurrences, matching_events. destruct (assert_bounded p); cbn [rbind]; try reflexivity. f_equal.
    clear -A SO. induction (stored s2) as [|e l IH]; [reflexivity|]. cbn [rfilter]. now rewrite IH, (restrict_alike cr l1 l2 e A SO). }
  rewrite E. apply get_occurrences_alike. now apply stored_alike.
Qed.

Lemma calendar_segmented_alike F s1 s2 c p cr : sys_alike s1 s2 ->
  ends_alike (listed_alike occ_alike)
    (let* l := cal_attendees s1 c in calendar_segmented F (stored s1) l p cr)
    (let* l := cal_attendees s2 c in calendar_segmented F (stored s2) l p cr).
Proof.
  intros H. pose proof (cal_attendees_alike s1 s2 c H) as A. pose proof (cal_attendees_some s1 c) as SO.
  destruct (cal_attendees s1 c) as [l1| |], (cal_attendees s2 c) as [l2| |]; cbn [ends_alike] in A; try contradiction; try exact I.
  cbn [rbind]. specialize (SO l1 eq_refl). unfold calendar_segmented.
  assert (E : get_occurrences_segmented F (stored s2) p (Some (restrict_attendees cr l2)) = get_occurrences_segmented F (stored s2) p (Some (restrict_attendees cr l1))).
  { unfold get_occurrences_segmented, get_occurrences, matching_events. destruct (assert_bounded p); cbn [rbind]; try reflexivity. f_equal. f_equal.
    clear -A SO. induction (stored s2) as [|e l IH]; [reflexivity|]. cbn [rfilter]. now rewrite IH, (restrict_alike cr l1 l2 e A SO). }
  rewrite E. apply segmented_alike. now apply stored_alike.
Qed.

Lemma export_alike e1 e2 : event_alike e1 e2 -> export_event false e1 = export_event false e2.
Proof. now intros []. Qed.

Lemma export_cal_alike s1 s2 c p cr : sys_alike s1 s2 ->
  ends_alike (@Permutation vevent) (export_cal s1 c p cr) (export_cal s2 c p cr).
Proof.
  intros H. unfold export_cal. eapply ends_bind; [apply cal_events_alike; exact H|]. intros l1 l2 L.
  eapply map_alike; [|exact L]. apply export_alike.
Qed.

(** ** steps *)
Definition smut_same {A} (m1 m2 : smut A) : Prop :=
  sys_alike (sst m1) (sst m2) /\ snt m1 = snt m2 /\ srs m1 = srs m2.

Lemma smut_intro {A} s1 s2 n (r : res A) : sys_alike s1 s2 -> smut_same (s1, n, r) (s2, n, r).
Proof. intros H. now repeat split; try apply H. Qed.

Lemma sbind_same {A B} (m1 m2 : smut A) (f1 f2 : system -> A -> smut B) : smut_same m1 m2 ->
  (forall a, srs m1 = Ok a -> smut_same (f1 (sst m1) a) (f2 (sst m2) a)) -> smut_same (sbind m1 f1) (sbind m2 f2).
Proof.
  destruct m1 as [[s1 n1] r1], m2 as [[s2 n2] r2]. intros (H1 & H2 & H3) F. unfold sst, snt, srs in *. cbn in H1, H2, H3. subst n2 r2.
  cbn [fst snd] in F. unfold sbind. destruct r1 as [a|x|]; try (now apply smut_intro).
  specialize (F a eq_refl). destruct (f1 s1 a) as [[a1 b1] c1], (f2 s2 a) as [[a2 b2] c2]. destruct F as (F1 & F2 & F3).
  unfold sst, snt, srs in *. cbn in F1, F2, F3. subst. now apply smut_intro.
Qed.

Lemma create_same cf s1 s2 u sp now : sys_alike s1 s2 -> smut_same (create_event cf s1 u sp now) (create_event cf s2 u sp now).
Proof.
  intros H. pose proof (heap_length s1 s2 H) as HL. assert (H' := H). destruct H' as (HH & D & S & C).
  unfold create_event. rewrite <- (same_length _ _ D), <- HL. destruct (new_event _ sp) as [e| |] eqn:E; try (now apply smut_intro).
  apply smut_intro. split; [|split; [|split]]; cbn.
  - apply Forall2_app; [exact HH|]. constructor; [|constructor]. exact (new_event_alike _ _ _ E).
  - now apply same_set.
  - exact S.
  - exact C.
Qed.

Lemma drop_same {A} (m1 m2 : smut A) : smut_same m1 m2 -> smut_same (drop m1) (drop m2).
Proof.
  destruct m1 as [[s1 n1] r1], m2 as [[s2 n2] r2]. intros (H1 & H2 & H3). unfold sst, snt, srs in *. cbn in H1, H2, H3. subst.
  now apply smut_intro.
Qed.

Lemma delete_same s1 s2 r : sys_alike s1 s2 -> smut_same (delete_event s1 r) (delete_event s2 r).
Proof.
  intros H. assert (H' := H). destruct H' as (HH & D & S & C). unfold delete_event. rewrite (alike_uid _ _ (obj_alike s1 s2 r H)).
  destruct (same_del _ _ (e_uid (obj s2 r)) D) as [(r1 & r2 & -> & -> & D')|[-> ->]]; [|now apply smut_intro].
  apply smut_intro. split; [|split; [|split]]; assumption.
Qed.

Lemma on_event_same s1 s2 r f1 f2 : sys_alike s1 s2 -> (forall e1 e2, event_alike e1 e2 -> mut_alike (f1 e1) (f2 e2)) ->
  smut_same (on_event s1 r f1) (on_event s2 r f2).
Proof.
  intros H F. specialize (F _ _ (obj_alike s1 s2 r H)). unfold on_event.
  destruct (f1 (obj s1 r)) as [[a1 b1] c1], (f2 (obj s2 r)) as [[a2 b2] c2]. destruct F as (F1 & F2 & F3). cbn in F1, F2, F3. subst.
  apply smut_intro. destruct H as (HH & D & S & C). split; [|split; [|split]]; try assumption. now apply forall2_replace.
Qed.

(** the main attendee is only asked for when the component names no organizer
    the source knows *)
Definition organized_by_known (s : system) (v : vevent) : Prop :=
  exists i, v_organizer v = Some i /\ source_knows s i = true.

Definition agree (s1 s2 : system) (c : nat) (v : vevent) : Prop :=
  main_attendee s1 c = main_attendee s2 c \/ organized_by_known s1 v.

Lemma import_spec_agree tz s1 s2 c v : sys_alike s1 s2 -> agree s1 s2 c v ->
  import_spec tz (source_knows s1) (main_attendee s1 c) v = import_spec tz (source_knows s2) (main_attendee s2 c) v.
Proof.
  intros H A. assert (K : forall i, source_knows s1 i = source_knows s2 i) by (intros i; now apply knows_alike).
  unfold import_spec. cbv zeta. destruct (dtstart_duration tz v) as [[[a d] b]| |]; cbn [rbind]; try reflexivity.
  match goal with
  | |- context [map ?f (v_attendees v)] =>
      match goal with
      | |- _ = ?rhs =>
          match rhs with
          | context [map ?g (v_attendees v)] =>
              replace (map f (v_attendees v)) with (map g (v_attendees v)) by (apply map_ext; intros [[j ps] ro]; now rewrite K)
          end
      end
  end.
  destruct A as [->|(i & -> & X)].
  - destruct (v_organizer v) as [i|]; [rewrite K|]; reflexivity.
  - rewrite <- K, X. reflexivity.
Qed.

Lemma slift_same {A B} s1 s2 (r : res A) (f1 f2 : system -> A -> smut B) : sys_alike s1 s2 ->
  (forall a, r = Ok a -> smut_same (f1 s1 a) (f2 s2 a)) -> smut_same (sbind (slift s1 r) f1) (sbind (slift s2 r) f2).
Proof. intros H F. rewrite !sbind_slift. destruct r as [a| |]; [now apply F|now apply smut_intro|now apply smut_intro]. Qed.

Lemma import_existing_same cf s1 s2 c u v : sys_alike s1 s2 -> agree s1 s2 c v ->
  smut_same (import_existing cf s1 c u v) (import_existing cf s2 c u v).
Proof.
  intros H A. unfold import_existing. rewrite (get_event_alike s1 s2 u H). apply slift_same; [exact H|]. intros r _.
  rewrite (import_spec_agree (cf_tz cf) s1 s2 c v H A). apply slift_same; [exact H|]. intros sp _.
  rewrite (will_modify_alike sp _ _ (obj_alike s1 s2 r H)). apply slift_same; [exact H|]. intros b _.
  destruct b; [|now apply smut_intro]. pose proof (on_event_same s1 s2 r _ _ H (set_on_object_alike sp)) as O.
  apply sbind_same; [exact O|]. intros [] _. destruct O as (O & _). rewrite (alike_uid _ _ (obj_alike _ _ r O)). now apply smut_intro.
Qed.

Lemma import_one_same cf s1 s2 c k1 k2 v : sys_alike s1 s2 -> agree s1 s2 c v -> (forall u, str_in u k1 = str_in u k2) ->
  smut_same (import_one cf s1 c k1 v) (import_one cf s2 c k2 v).
Proof.
  intros H A K. unfold import_one. destruct (v_uid v) as [u|]; [|now apply smut_intro]. rewrite K. destruct (str_in u k2).
  - pose proof (import_existing_same cf s1 s2 c u v H A) as E. apply sbind_same; [exact E|]. intros [] _. apply smut_intro, E.
  - rewrite (has_event_alike s1 s2 u H). destruct (has_event s2 u); [now apply smut_intro|].
    assert (E : smut_same (import_new cf s1 c u v) (import_new cf s2 c u v)).
    { unfold import_new. rewrite (import_spec_agree (cf_tz cf) s1 s2 c v H A). apply slift_same; [exact H|]. intros sp _.
      pose proof (create_same cf s1 s2 (Some u) sp 0 H) as C. apply sbind_same; [exact C|]. intros r _. apply smut_intro, C. }
    apply sbind_same; [exact E|]. intros [] _. apply smut_intro, E.
Qed.

Lemma agree_frame s1 s2 t1 t2 c v k1 k2 u1 u2 : frame k1 u1 s1 t1 -> frame k2 u2 s2 t2 -> agree s1 s2 c v -> agree t1 t2 c v.
Proof.
  intros (_ & _ & _ & _ & S1 & C1) (_ & _ & _ & _ & S2 & C2). destruct (same_source s1 t1 c S1 C1) as [K1 M1].
  destruct (same_source s2 t2 c S2 C2) as [K2 M2]. unfold agree, organized_by_known. now rewrite K1, M1, M2.
Qed.

Lemma import_loop_same cf c k1 k2 l : (forall u, str_in u k1 = str_in u k2) -> forall s1 s2, sys_alike s1 s2 ->
  Forall (agree s1 s2 c) l -> smut_same (import_loop cf s1 c k1 l) (import_loop cf s2 c k2 l).
Proof.
  intros K. induction l as [|v l IH]; intros s1 s2 H A; cbn [import_loop]; [now apply smut_intro|].
  inversion A as [|? ? A1 A2]; subst. pose proof (import_one_same cf s1 s2 c k1 k2 v H A1 K) as O. apply sbind_same; [exact O|]. intros u _.
  assert (L : smut_same (import_loop cf (sst (import_one cf s1 c k1 v)) c k1 l) (import_loop cf (sst (import_one cf s2 c k2 v)) c k2 l)).
  { apply IH; [apply O|]. eapply Forall_impl; [|exact A2]. intros w. apply (agree_frame _ _ _ _ c w k1 k2 (import_uids [v]) (import_uids [v]));
      apply import_one_frame; intros x X; unfold import_uids; cbn [flat_map]; rewrite X; now left. }
  apply sbind_same; [exact L|]. intros us _. apply smut_intro, L.
Qed.

(** deleting a set of ids, visited in two orders *)
Lemma delete_loop_alike s1 s2 l1 l2 : sys_alike s1 s2 -> store_inv s1 -> Permutation l1 l2 -> NoDup l1 ->
  (forall u, In u l1 -> has_event s1 u = true) ->
  let m1 := delete_loop s1 l1 in let m2 := delete_loop s2 l2 in
  sys_alike (sst m1) (sst m2) /\ Permutation (snt m1) (snt m2) /\ srs m1 = srs m2.
Proof.
  intros H I1 P N1 E1. pose proof (store_inv_alike s1 s2 H I1) as I2. pose proof (Permutation_NoDup P N1) as N2.
  assert (E2 : forall u, In u l2 -> has_event s2 u = true).
  { intros u U. rewrite <- (has_event_alike s1 s2 u H). apply E1. eapply Permutation_in; [symmetry; exact P|exact U]. }
  pose proof (delete_loop_tracks l1 s1 I1) as ((ND1 & _) & _). pose proof (delete_loop_tracks l2 s2 I2) as ((ND2 & _) & _).
  destruct (delete_loop_ok l1 s1 I1 N1 E1) as (t1 & D1 & H1 & S1 & C1 & G1).
  destruct (delete_loop_ok l2 s2 I2 N2 E2) as (t2 & D2 & H2 & S2 & C2 & G2).
  cbv zeta. rewrite D1 in *. rewrite D2 in *. unfold sst, snt, srs in *. cbn [fst snd] in *.
  split; [|split; [now apply Permutation_map|reflexivity]]. assert (H' := H). destruct H' as (HH & D & S & C).
  split; [now rewrite H1, H2|]. split; [|split; [now rewrite S1, S2|now rewrite C1, C2]].
  apply same_intro; [exact ND1|exact ND2|]. intros k. rewrite G1, G2. unfold str_in. rewrite (existsb_perm _ _ _ P).
  destruct (existsb (String.eqb k) l2); [reflexivity|]. now apply same_get.
Qed.

Lemma known_perm evs1 evs2 : listed_alike event_alike evs1 evs2 ->
  Permutation (nodup string_dec (map e_uid evs1)) (nodup string_dec (map e_uid evs2)).
Proof.
  intros (l & P & F). apply NoDup_Permutation; try apply NoDup_nodup. intros u. rewrite !nodup_In.
  assert (E : map e_uid l = map e_uid evs2).
  { clear -F. induction F as [|a b l l' X F IH]; [reflexivity|]. cbn. now rewrite (alike_uid _ _ X), IH. }
  rewrite <- E. split; apply Permutation_in; [|symmetry]; now apply Permutation_map.
Qed.

Lemma filter_perm {A} (f : A -> bool) l1 l2 : Permutation l1 l2 -> Permutation (filter f l1) (filter f l2).
Proof.
  induction 1 as [|x l l' P IH|x y l|l l' l'' P1 IH1 P2 IH2]; cbn [filter].
  - constructor.
  - destruct (f x); [now constructor|exact IH].
  - destruct (f x), (f y); try apply perm_swap; reflexivity.
  - now transitivity (filter f l').
Qed.

(** for an import, the two calendars have the same main attendee, or it is not
    asked for *)
Definition op_agree (s1 s2 : system) (o : op) : Prop :=
  match o with OImport c (Ok (Some vs)) _ _ _ => Forall (agree s1 s2 c) vs | _ => True end.

Definition step_alike_goal {A} (m1 m2 : smut A) : Prop :=
  sys_alike (sst m1) (sst m2) /\ Permutation (snt m1) (snt m2) /\ ends_alike eq (srs m1) (srs m2).

Lemma same_goal {A} (m1 m2 : smut A) : smut_same m1 m2 -> step_alike_goal m1 m2.
Proof.
  intros (H & N & R). split; [exact H|]. split; [now rewrite N|]. rewrite R. destruct (srs m2); cbn; auto.
Qed.

Lemma import_alike cf s1 s2 c parsed p cr sync : sys_alike s1 s2 -> store_inv s1 ->
  op_agree s1 s2 (OImport c parsed p cr sync) ->
  step_alike_goal (import_cal cf s1 c parsed p cr sync) (import_cal cf s2 c parsed p cr sync).
Proof.
  intros H I A. unfold import_cal. rewrite !sbind_slift. pose proof (cal_events_alike s1 s2 c p cr H) as E.
  pose proof (known_stored s1 c p cr) as KS.
  destruct (cal_events s1 c p cr) as [e1|x1|], (cal_events s2 c p cr) as [e2|x2|]; cbn [ends_alike] in E; try contradiction;
    try (split; [exact H|split; [reflexivity|exact Logic.I]]).
  rewrite !sbind_slift. destruct parsed as [[vs|]|x|]; try (apply same_goal; now apply smut_intro).
  cbn [op_agree] in A. specialize (KS e1 I eq_refl). pose proof (known_perm e1 e2 E) as KP.
  assert (KEQ : forall u, str_in u (nodup string_dec (map e_uid e1)) = str_in u (nodup string_dec (map e_uid e2))).
  { intros u. unfold str_in. now apply existsb_perm. }
  pose proof (import_loop_same cf c _ _ vs KEQ s1 s2 H A) as L.
  pose proof (import_loop_tracks cf c (nodup string_dec (map e_uid e1)) vs s1 I) as (I1 & _).
  pose proof (import_loop_frame (nodup string_dec (map e_uid e1)) (import_uids vs) cf c vs (fun u U => U) s1) as FR.
  destruct (import_loop cf s1 c (nodup string_dec (map e_uid e1)) vs) as [[t1 n1] r1].
  destruct (import_loop cf s2 c (nodup string_dec (map e_uid e2)) vs) as [[t2 n2] r2].
  destruct L as (L1 & L2 & L3). unfold sst, snt, srs in L1, L2, L3, I1, FR. cbn [fst snd] in L1, L2, L3, I1, FR. subst n2 r2.
  destruct r1 as [ical| |]; try (apply same_goal; now apply smut_intro).
  rewrite !sbind_ok. destruct sync; [|apply same_goal; now apply smut_intro].
  pose proof (delete_loop_alike t1 t2 (filter (fun u => negb (str_in u ical)) (nodup string_dec (map e_uid e1)))
                (filter (fun u => negb (str_in u ical)) (nodup string_dec (map e_uid e2))) L1 I1 (filter_perm _ _ _ KP)
                (NoDup_filter _ (NoDup_nodup _ _))) as DL.
  destruct DL as (DL1 & DL2 & DL3).
  { intros u U. apply filter_In in U as [U _]. eapply frame_has; [exact FR|]. now apply KS. }
  unfold step_alike_goal, sst, snt, srs in *. cbn [fst snd]. split; [exact DL1|]. split; [now apply Permutation_app_head|].
  rewrite DL3. destruct (snd (delete_loop t2 _)); cbn; auto.
Qed.

Definition is_import (o : op) : Prop := match o with OImport _ _ _ _ _ => True | _ => False end.

Lemma step_same cf s1 s2 o : sys_alike s1 s2 -> ~ is_import o -> smut_same (step cf s1 o) (step cf s2 o).
Proof.
  intros H NI. assert (H' := H). destruct H' as (HH & D & S & C). destruct o; cbn [step].
  - now apply drop_same, create_same.
  - now apply drop_same, create_same.
  - now apply delete_same.
  - apply on_event_same; [exact H|]. intros e1 e2. apply invite_alike.
  - apply on_event_same; [exact H|]. intros e1 e2. apply set_status_alike.
  - apply on_event_same; [exact H|]. intros e1 e2. apply set_role_alike.
  - apply on_event_same; [exact H|]. intros e1 e2 E. now apply mut_intro, adjust_alike.
  - apply on_event_same; [exact H|]. intros e1 e2 E. now apply mut_intro, set_attrs_alike.
  - apply on_event_same; [exact H|]. intros e1 e2. apply set_on_object_alike.
  - apply smut_intro. split; [exact HH|]. split; [exact D|]. split; [now apply same_set|exact C].
  - apply smut_intro. split; [exact HH|]. split; [exact D|]. split; [exact S|]. apply Forall2_app; [exact C|].
    constructor; [split; constructor|constructor].
  - unfold add_attendee. destruct (attendee_id a) as [i| |]; try (now apply smut_intro). apply smut_intro.
    split; [exact HH|]. split; [exact D|]. split; [exact S|]. apply forall2_replace; [exact C|]. apply same_set. now apply cal_same.
  - unfold remove_attendee. destruct (attendee_id a) as [i| |]; cbn [rbind]; try (now apply smut_intro).
    destruct (same_del _ _ i (cal_same s1 s2 c H)) as [(r1 & r2 & -> & -> & R)|[-> ->]]; [|now apply smut_intro].
    apply smut_intro. split; [exact HH|]. split; [exact D|]. split; [exact S|]. now apply forall2_replace.
  - now elim NI.
Qed.

Lemma step_alike cf s1 s2 o : sys_alike s1 s2 -> store_inv s1 -> op_agree s1 s2 o ->
  step_alike_goal (step cf s1 o) (step cf s2 o).
Proof.
  intros H I A. destruct o; try (apply same_goal, step_same; [exact H|now intros []]). now apply import_alike.
Qed.
