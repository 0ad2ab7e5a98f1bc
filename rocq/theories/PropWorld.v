(** Several storages and managers: C86 - C88. *)
From Verif Require Import Base PyDate DateFacts Recurrent CalTime TimeProofs Event Storage ICal System World
  QueryProofs BlockProofs EventProofs SpecProofs SystemProofs StoreProofs IdProofs ImportProofs RuleText SpecText TextProofs PropEvent PropSystem PropCalendar.

(** * What the history says *)
Definition entry := (wop * list notification * res unit)%type.

(** the storage a manager was given last *)
Definition set1 (m : nat) (st : option nat) (x : entry) : option nat :=
  match fst (fst x) with WSetStorage m' k => if Nat.eqb m' m then Some k else st | _ => st end.
Definition told_storage (h : list entry) (m : nat) : option nat := fold_left (set1 m) h None.

(** the manager a calendar was made with *)
Definition cal_managers (h : list entry) : list nat :=
  flat_map (fun x : entry => match fst (fst x) with WCalendar m => [m] | _ => [] end) h.
Definition told_manager (h : list entry) (c : nat) : nat := nth c (cal_managers h) 0%nat.

(** the storage a call made after the history goes to *)
Definition goes_to (h : list entry) (o : wop) : option nat :=
  match o with
  | WCreate m _ _ _ | WAttendeeCreate m _ _ _ | WDelete m _ _ => told_storage h m
  | WEvent k _ _ => Some k
  | WImport c _ _ _ _ => told_storage h (told_manager h c)
  | _ => None
  end.

(** the notifications of the calls that went to storage [k], [pre] having happened before *)
Fixpoint notes_for (k : nat) (pre h : list entry) : list notification :=
  match h with
  | [] => []
  | x :: r =>
      (match goes_to pre (fst (fst x)) with Some k' => if Nat.eqb k' k then snd (fst x) else [] | None => [] end)
      ++ notes_for k (pre ++ [x]) r
  end.

Lemma notes_for_snoc k h : forall pre x, notes_for k pre (h ++ [x])
  = notes_for k pre h ++ match goes_to (pre ++ h) (fst (fst x)) with Some k' => if Nat.eqb k' k then snd (fst x) else [] | None => [] end.
Proof.
  induction h as [|y h IH]; intros pre x; cbn [Datatypes.app notes_for].
  - now rewrite !app_nil_r.
  - rewrite IH, <- app_assoc, <- app_assoc. reflexivity.
Qed.

(** * The state against the history *)
Lemma told_snoc h x m : told_storage (h ++ [x]) m = set1 m (told_storage h m) x.
Proof. unfold told_storage. now rewrite fold_left_app. Qed.

Lemma map_snd_combine {A B} (l : list A) (l' : list B) : List.length l = List.length l' -> map snd (List.combine l l') = l'.
Proof. revert l'. induction l as [|x l IH]; intros [|y l'] H; try discriminate; [reflexivity|]. cbn. f_equal. apply IH. now injection H. Qed.
Lemma map_fst_combine {A B} (l : list A) (l' : list B) : List.length l = List.length l' -> map fst (List.combine l l') = l.
Proof. revert l'. induction l as [|x l IH]; intros [|y l'] H; try discriminate; [reflexivity|]. cbn. f_equal. apply IH. now injection H. Qed.

Lemma put_shape w k s : w_managers (put w k s) = w_managers w /\ w_source (put w k s) = w_source w /\ w_cals (put w k s) = w_cals w
  /\ List.length (w_boxes (put w k s)) = List.length (w_boxes w).
Proof. unfold put. cbn. rewrite replace_nth_length. auto. Qed.

Lemma put_other w k s j : j <> k -> the_box (put w k s) j = the_box w j.
Proof. intros H. unfold the_box, put. cbn. rewrite replace_nth_get. destruct (Nat.eqb_spec j k); [contradiction|reflexivity]. Qed.

Lemma put_same w k s : (k < List.length (w_boxes w))%nat ->
  the_box (put w k s) k = mkBox (sys_heap s) (sys_store s) (b_id (the_box w k)) (b_host (the_box w k)).
Proof.
  intros H. unfold the_box, put. cbn. rewrite replace_nth_get. rewrite Nat.eqb_refl. destruct (Nat.ltb_spec k (List.length (w_boxes w))); [reflexivity|lia].
Qed.

Lemma put_view w k s : (k < List.length (w_boxes w))%nat -> sys_source s = w_source w -> sys_cals s = map snd (w_cals w) ->
  view (put w k s) k = s.
Proof.
  intros H E1 E2. unfold view. rewrite put_same by exact H. destruct (put_shape w k s) as (_ & -> & -> & _). cbn. rewrite <- E1, <- E2. now destruct s.
Qed.

(** an operation that concerns the source and the calendars only *)
Definition about_people (o : op) : Prop :=
  match o with OAttendee _ _ _ | OAddAttendee _ _ | ORemoveAttendee _ _ => True | _ => False end.

Lemma apart_shape tz w o w' n r : about_people o -> apart tz w o = (w', n, r) ->
  w_boxes w' = w_boxes w /\ w_managers w' = w_managers w /\ map fst (w_cals w') = map fst (w_cals w)
  /\ n = []
  /\ forall cf h d, step cf (mkSys h d (w_source w) (map snd (w_cals w))) o = (mkSys h d (w_source w') (map snd (w_cals w')), n, r).
Proof.
  intros A E. unfold apart in E.
  assert (L : forall l : list (dict unit), List.length l = List.length (w_cals w) -> List.length (map fst (w_cals w)) = List.length l)
    by (intros l H; now rewrite map_length).
  assert (L0 : List.length (map fst (w_cals w)) = List.length (map snd (w_cals w))) by now rewrite !map_length.
  destruct o; cbn in A; try contradiction; cbn [step] in E |- *.
  - unfold sret, create_attendee, with_source in E |- *. cbn [sys_heap sys_store sys_source sys_cals] in E |- *. injection E as <- <- <-.
    cbn [w_boxes w_managers w_cals w_source]. rewrite map_fst_combine, map_snd_combine by exact L0. auto.
  - unfold add_attendee in *. destruct (attendee_id a) as [i| |]; unfold sret, sfail, with_cals, cal in *; cbn [sys_heap sys_store sys_source sys_cals] in *;
      injection E as <- <- <-; cbn [w_boxes w_managers w_cals w_source].
    + rewrite map_fst_combine, map_snd_combine by (rewrite replace_nth_length; exact L0). auto.
    + rewrite map_fst_combine, map_snd_combine by exact L0. auto.
    + rewrite map_fst_combine, map_snd_combine by exact L0. auto.
  - unfold remove_attendee in *. unfold cal in *. cbn [sys_cals] in *. destruct (rbind _ _) as [d| |]; unfold sret, sfail, with_cals in *;
      cbn [sys_heap sys_store sys_source sys_cals] in *; injection E as <- <- <-; cbn [w_boxes w_managers w_cals w_source].
    + rewrite map_fst_combine, map_snd_combine by (rewrite replace_nth_length; exact L0). auto.
    + rewrite map_fst_combine, map_snd_combine by exact L0. auto.
    + rewrite map_fst_combine, map_snd_combine by exact L0. auto.
Qed.

(** an operation answered by a storage leaves the source and the calendars alone *)
Definition at_storage (o : op) : Prop :=
  match o with OAttendee _ _ _ | OCalendar | OAddAttendee _ _ | ORemoveAttendee _ _ => False | _ => True end.

Lemma at_storage_rest cf s o : store_inv s -> at_storage o ->
  sys_source (sst (step cf s o)) = sys_source s /\ sys_cals (sst (step cf s o)) = sys_cals s.
Proof. intros I A. rewrite step_source, step_cals by exact I. destruct o; cbn in A; try contradiction; auto. Qed.

Lemma through_spec tz w k o w' n r : (k < List.length (w_boxes w))%nat -> reachable (cf_of tz w k) (view w k) -> at_storage o ->
  through tz w k o = (w', n, r) ->
  exists s, step (cf_of tz w k) (view w k) o = (s, n, r) /\ w' = put w k s /\ view w' k = s.
Proof.
  intros K R A E. unfold through in E. destruct (step (cf_of tz w k) (view w k) o) as [[s n'] r'] eqn:S. injection E as <- <- <-.
  exists s. split; [reflexivity|]. split; [reflexivity|].
  destruct (at_storage_rest (cf_of tz w k) (view w k) o (reachable_store _ _ R) A) as [E1 E2]. rewrite S in E1, E2. now apply put_view.
Qed.

(** deleting by id is deleting the stored object of that id *)
Lemma delete_spec tz w k u w' n r : (k < List.length (w_boxes w))%nat -> reachable (cf_of tz w k) (view w k) ->
  delete_by_id w k u = (w', n, r) ->
  (exists j s, get_event (view w k) u = Ok j /\ step (cf_of tz w k) (view w k) (ODelete j) = (s, n, r) /\ w' = put w k s /\ view w' k = s /\ r = Ok tt /\ n = [NDeleted u])
  \/ (get_event (view w k) u = Raise KeyError /\ w' = w /\ n = [] /\ r = Raise KeyError).
Proof.
  intros K R E. unfold delete_by_id in E. change (b_store (the_box w k)) with (sys_store (view w k)) in E.
  unfold get_event. pose proof (reachable_store _ _ R) as (ND & ST). unfold ddel in E.
  destruct (dget (sys_store (view w k)) u) as [j|] eqn:D.
  - left. destruct (ST u j D) as (LT & U & _). injection E as <- <- <-. exists j, (with_store (view w k) (drem (sys_store (view w k)) u)).
    split; [reflexivity|]. split. { cbn [step]. unfold delete_event, ddel. rewrite U, D. reflexivity. }
    split; [reflexivity|]. split; [apply put_view; auto|auto].
  - right. injection E as <- <- <-. auto.
Qed.

(** the state of the world against its history *)
Definition agrees (tz : Z -> Z) (w : world) (h : list entry) : Prop :=
  (forall m, storage_of w m = told_storage h m)
  /\ map fst (w_cals w) = cal_managers h
  /\ (forall m k, storage_of w m = Some k -> (k < List.length (w_boxes w))%nat)
  /\ (forall cf, reachable cf (mkSys [] [] (w_source w) (map snd (w_cals w))))
  /\ (forall k, (k < List.length (w_boxes w))%nat -> reachable (cf_of tz w k) (view w k))
  /\ (forall k uid, (k < List.length (w_boxes w))%nat -> has_event (view w k) uid = alive (notes_for k [] h) uid false)
  /\ (forall k, (List.length (w_boxes w) <= k)%nat -> notes_for k [] h = []).

Lemma agrees_init tz : agrees tz winit [].
Proof.
  assert (N : forall m, storage_of winit m = None) by (intros [|m]; reflexivity).
  split; [exact N|]. split; [reflexivity|]. split; [intros m k; rewrite N; discriminate|].
  split; [intros cf; exists []; constructor|]. split; [cbn; lia|]. split; [cbn; lia|]. reflexivity.
Qed.

Lemma reachable_step cf s o s' n r : reachable cf s -> step cf s o = (s', n, r) -> reachable cf s'.
Proof. intros (h & H) E. eexists. econstructor; eassumption. Qed.

(** nothing happens *)
Lemma agrees_nothing tz w h o r : agrees tz w h ->
  (forall m, set1 m (told_storage h m) (o, [], r) = told_storage h m) -> cal_managers [(o, [], r)] = [] ->
  agrees tz w (h ++ [(o, [], r)]).
Proof.
  intros (A1 & A2 & A3 & A4 & A5 & A6 & A7) S C.
  assert (N : forall k, notes_for k [] (h ++ [(o, [], r)]) = notes_for k [] h).
  { intros k. rewrite notes_for_snoc. cbn [fst snd]. destruct (goes_to _ _) as [k'|]; [destruct (Nat.eqb k' k)|]; now rewrite app_nil_r. }
  split; [intros m; now rewrite told_snoc, S|]. split; [unfold cal_managers in *; rewrite flat_map_app, C, app_nil_r; exact A2|].
  split; [exact A3|]. split; [exact A4|]. split; [exact A5|]. split; intros; rewrite N; auto.
Qed.

(** a storage answers *)
Lemma agrees_storage tz w h o n r k o' s : agrees tz w h -> (k < List.length (w_boxes w))%nat ->
  step (cf_of tz w k) (view w k) o' = (s, n, r) -> view (put w k s) k = s -> goes_to h o = Some k ->
  (forall m, set1 m (told_storage h m) (o, n, r) = told_storage h m) -> cal_managers [(o, n, r)] = [] ->
  agrees tz (put w k s) (h ++ [(o, n, r)]).
Proof.
  intros (A1 & A2 & A3 & A4 & A5 & A6 & A7) K E V G S C. destruct (put_shape w k s) as (P1 & P2 & P3 & P4).
  assert (CF : forall j, cf_of tz (put w k s) j = cf_of tz w j).
  { intros j. unfold cf_of. destruct (Nat.eq_dec j k) as [->|N]; [now rewrite put_same|now rewrite put_other]. }
  assert (VO : forall j, j <> k -> view (put w k s) j = view w j).
  { intros j N. unfold view. now rewrite P2, P3, put_other. }
  split; [intros m; rewrite told_snoc, S; unfold storage_of; rewrite P1; apply A1|].
  split; [rewrite P3; unfold cal_managers in *; rewrite flat_map_app, C, app_nil_r; exact A2|].
  split; [intros m j; rewrite P4; unfold storage_of; rewrite P1; apply A3|].
  split; [rewrite P2, P3; exact A4|]. rewrite P4. split; [|split].
  - intros j Hj. rewrite CF. destruct (Nat.eq_dec j k) as [->|N]; [|rewrite VO by exact N; auto]. rewrite V. eapply reachable_step; [|exact E]. auto.
  - intros j uid Hj. rewrite notes_for_snoc. cbn [Datatypes.app fst snd]. rewrite G. rewrite alive_app. destruct (Nat.eqb_spec k j) as [<-|N].
    + rewrite V. pose proof (step_tracks (cf_of tz w k) (view w k) o' (reachable_store _ _ (A5 k K))) as (_ & _ & T). rewrite E in T. unfold sst, snt in T. cbn in T.
      rewrite T, A6 by exact K. reflexivity.
    + rewrite VO by congruence. cbn. auto.
  - intros j Hj. rewrite notes_for_snoc. cbn [Datatypes.app fst snd]. rewrite G, A7 by exact Hj. destruct (Nat.eqb_spec k j); [lia|reflexivity].
Qed.

Lemma manager_told tz w h c : agrees tz w h -> (c < List.length (w_cals w))%nat -> manager_of w c = told_manager h c.
Proof.
  intros (_ & A2 & _) C. unfold manager_of, told_manager. rewrite <- A2. change 0%nat with (fst (0%nat, @nil (string * unit))) at 2. now rewrite map_nth.
Qed.

(** source or calendars change *)
Lemma agrees_apart tz w h o n r o' w' : agrees tz w h -> about_people o' -> apart tz w o' = (w', n, r) -> goes_to h o = None ->
  (forall m, set1 m (told_storage h m) (o, n, r) = told_storage h m) -> cal_managers [(o, n, r)] = [] ->
  agrees tz w' (h ++ [(o, n, r)]).
Proof.
  intros (A1 & A2 & A3 & A4 & A5 & A6 & A7) P E G S C. destruct (apart_shape tz w o' w' n r P E) as (B1 & B2 & B3 & -> & ST).
  assert (N : forall k, notes_for k [] (h ++ [(o, [], r)]) = notes_for k [] h).
  { intros k. rewrite notes_for_snoc. cbn [Datatypes.app fst snd]. now rewrite G, app_nil_r. }
  split; [intros m; rewrite told_snoc, S; unfold storage_of; rewrite B2; apply A1|].
  split; [rewrite B3; unfold cal_managers in *; rewrite flat_map_app, C, app_nil_r; exact A2|].
  split; [intros m j; rewrite B1; unfold storage_of; rewrite B2; apply A3|].
  assert (TB : forall k, the_box w' k = the_box w k) by (intros k; unfold the_box; now rewrite B1).
  split; [intros cf; eapply reachable_step; [apply A4|apply ST]|]. rewrite B1. split; [|split].
  - intros k K. unfold cf_of, view. rewrite TB. eapply reachable_step; [apply (A5 k K)|]. apply ST.
  - intros k uid K. rewrite N, <- A6 by exact K. rewrite !has_event_dget. unfold view. cbn. now rewrite TB.
  - intros k K. rewrite N. auto.
Qed.

Lemma wstep_agrees tz w h o w' n r : agrees tz w h -> refers w o -> wstep tz w o = (w', n, r) -> agrees tz w' (h ++ [(o, n, r)]).
Proof.
  intros A R E. pose proof A as (A1 & A2 & A3 & A4 & A5 & A6 & A7).
  destruct o as [|id host|m k|m uid sp now|m i sp now|m k j|k j x|i name typ|m|c a|c a|c parsed p cr sync]; cbn [wstep] in E.
  - injection E as <- <- <-.
    assert (ST : forall m, nth m (w_managers w ++ [None]) None = nth m (w_managers w) None).
    { intros m. destruct (Nat.lt_ge_cases m (List.length (w_managers w))) as [L|L]; [now rewrite app_nth1|]. rewrite app_nth2, (nth_overflow (w_managers w)) by exact L.
      destruct (m - List.length (w_managers w))%nat as [|[|q]]; reflexivity. }
    assert (N : forall k, notes_for k [] (h ++ [(WManager, [], Ok tt)]) = notes_for k [] h) by (intros k; rewrite notes_for_snoc; cbn; now rewrite app_nil_r).
    split; [intros m; rewrite told_snoc; unfold storage_of; cbn [w_managers]; rewrite ST; apply A1|].
    split; [unfold cal_managers in *; rewrite flat_map_app; cbn; rewrite app_nil_r; exact A2|].
    split; [intros m k; unfold storage_of; cbn [w_managers w_boxes]; rewrite ST; apply A3|].
    split; [exact A4|]. split; [exact A5|]. split; [intros k uid K; rewrite N; exact (A6 k uid K)|intros k K; rewrite N; exact (A7 k K)].
  - injection E as <- <- <-.
    assert (N : forall k, notes_for k [] (h ++ [(WStorage id host, [], Ok tt)]) = notes_for k [] h) by (intros k; rewrite notes_for_snoc; cbn; now rewrite app_nil_r).
    set (w' := mkWorld _ _ _ _).
    assert (TB : forall k, (k < List.length (w_boxes w))%nat -> the_box w' k = the_box w k) by (intros k K; unfold the_box, w'; cbn; now rewrite app_nth1).
    assert (TN : the_box w' (List.length (w_boxes w)) = mkBox [] [] id host) by (unfold the_box, w'; cbn; rewrite app_nth2, Nat.sub_diag by lia; reflexivity).
    assert (L : List.length (w_boxes w') = S (List.length (w_boxes w))) by (unfold w'; cbn; rewrite app_length; cbn; lia).
    split; [intros m; rewrite told_snoc; apply A1|]. split; [unfold cal_managers in *; rewrite flat_map_app; cbn; rewrite app_nil_r; exact A2|].
    split; [intros m k S; rewrite L; specialize (A3 m k S); lia|]. split; [exact A4|]. rewrite L. split; [|split].
    + intros k K. destruct (Nat.eq_dec k (List.length (w_boxes w))) as [->|NE].
      * unfold cf_of, view. rewrite TN. cbn. apply A4.
      * unfold cf_of, view. rewrite TB by lia. apply A5. lia.
    + intros k uid K. rewrite N. destruct (Nat.eq_dec k (List.length (w_boxes w))) as [->|NE].
      * rewrite A7 by lia. unfold view. rewrite TN. reflexivity.
      * unfold view. rewrite TB by lia. apply A6. lia.
    + intros k K. rewrite N. apply A7. lia.
  - injection E as <- <- <-. destruct R as [RM RK].
    assert (ST : forall m', nth m' (replace_nth m (w_managers w) (Some k)) None = if Nat.eqb m m' then Some k else nth m' (w_managers w) None).
    { intros m'. rewrite replace_nth_get. rewrite (Nat.eqb_sym m' m). destruct (Nat.eqb_spec m m') as [<-|]; [|reflexivity]. cbn [andb]. destruct (Nat.ltb_spec m (List.length (w_managers w))); [reflexivity|lia]. }
    assert (N : forall k', notes_for k' [] (h ++ [(WSetStorage m k, [], Ok tt)]) = notes_for k' [] h) by (intros k'; rewrite notes_for_snoc; cbn; now rewrite app_nil_r).
    split; [intros m'; rewrite told_snoc; unfold storage_of, set1; cbn [w_managers fst]; rewrite ST; destruct (Nat.eqb m m'); [reflexivity|apply A1]|].
    split; [unfold cal_managers in *; rewrite flat_map_app; cbn; rewrite app_nil_r; exact A2|].
    split; [intros m' k'; unfold storage_of; cbn [w_managers w_boxes]; rewrite ST; destruct (Nat.eqb m m'); [intros [= <-]; exact RK|apply A3]|].
    split; [exact A4|]. split; [exact A5|]. split; [intros k' uid K; rewrite N; exact (A6 k' uid K)|intros k' K; rewrite N; exact (A7 k' K)].
  - unfold by_manager in E. destruct (storage_of w m) as [k|] eqn:M.
    + destruct (through_spec tz w k (OCreate uid sp now) w' n r (A3 m k M) (A5 k (A3 m k M)) I E) as (s & S & -> & V).
      eapply agrees_storage; eauto. cbn. now rewrite <- A1.
    + injection E as <- <- <-. apply agrees_nothing; auto.
  - unfold by_manager in E. destruct (storage_of w m) as [k|] eqn:M.
    + destruct (through_spec tz w k (OAttendeeCreate i sp now) w' n r (A3 m k M) (A5 k (A3 m k M)) I E) as (s & S & -> & V).
      eapply agrees_storage; eauto. cbn. now rewrite <- A1.
    + injection E as <- <- <-. apply agrees_nothing; auto.
  - unfold by_manager in E. destruct (storage_of w m) as [k'|] eqn:M.
    + destruct (delete_spec tz w k' _ w' n r (A3 m k' M) (A5 k' (A3 m k' M)) E) as [(q & s & _ & S & -> & V & _)|(_ & -> & -> & ->)].
      * eapply agrees_storage; eauto. cbn. now rewrite <- A1.
      * apply agrees_nothing; auto.
    + injection E as <- <- <-. apply agrees_nothing; auto.
  - destruct R as [RK _]. destruct (through_spec tz w k (call j x) w' n r RK (A5 k RK)) as (s & S & -> & V); [destruct x; exact I|exact E|].
    eapply agrees_storage; eauto; reflexivity.
  - eapply agrees_apart; [exact A| |exact E|reflexivity|reflexivity|reflexivity]. exact I.
  - injection E as <- <- <-.
    assert (N : forall k', notes_for k' [] (h ++ [(WCalendar m, [], Ok tt)]) = notes_for k' [] h) by (intros k'; rewrite notes_for_snoc; cbn; now rewrite app_nil_r).
    assert (ST : forall cf hp d, step cf (mkSys hp d (w_source w) (map snd (w_cals w))) OCalendar = (mkSys hp d (w_source w) (map snd (w_cals w ++ [(m, [])])), [], Ok tt)).
    { intros cf hp d. cbn [step]. unfold sret, with_cals. cbn. now rewrite map_app. }
    split; [intros m'; rewrite told_snoc; apply A1|]. split; [cbn [w_cals]; rewrite map_app, A2; unfold cal_managers; rewrite flat_map_app; reflexivity|].
    split; [exact A3|]. split; [intros cf; eapply reachable_step; [apply A4|apply ST]|]. split; [|split].
    + intros k K. eapply reachable_step; [apply (A5 k K)|]. apply ST.
    + intros k uid K. rewrite N. exact (A6 k uid K).
    + intros k K. rewrite N. exact (A7 k K).
  - eapply agrees_apart; [exact A| |exact E|reflexivity|reflexivity|reflexivity]. exact I.
  - eapply agrees_apart; [exact A| |exact E|reflexivity|reflexivity|reflexivity]. exact I.
  - cbn [refers] in R. rewrite (manager_told tz w h c A R) in E. destruct (storage_of w (told_manager h c)) as [k|] eqn:M.
    + destruct (through_spec tz w k (OImport c parsed p cr sync) w' n r (A3 _ k M) (A5 k (A3 _ k M)) I E) as (s & S & -> & V).
      eapply agrees_storage; eauto. cbn. now rewrite <- A1.
    + injection E as <- <- <-. apply agrees_nothing; auto.
Qed.

Lemma whistory_agrees tz w h : whistory tz w h -> agrees tz w h.
Proof. induction 1; [apply agrees_init|]. eapply wstep_agrees; eassumption. Qed.

(** * C86: every storage behaves as if it were the only one *)
(** Whatever is done with however many storages and managers, what is seen
    through a storage is a state of the single-storage system: everything proved
    about reachable states holds for each of them. *)
Theorem C86_alone tz w h k : whistory tz w h -> (k < List.length (w_boxes w))%nat -> reachable (cf_of tz w k) (view w k).
Proof. intros H. apply (whistory_agrees tz w h H). Qed.
Print Assumptions C86_alone.

(** A call changes at most the storage it goes to: the one that its manager, or
    the manager of its calendar, was given last. *)
Theorem C86_others tz w h o w' n r k : whistory tz w h -> refers w o -> wstep tz w o = (w', n, r) ->
  (k < List.length (w_boxes w))%nat -> goes_to h o <> Some k -> the_box w' k = the_box w k.
Proof.
  intros H R E K G. pose proof (whistory_agrees tz w h H) as A. pose proof A as (A1 & A2 & A3 & A4 & A5 & A6 & A7).
  assert (P : forall j s, Some j = goes_to h o -> the_box (put w j s) k = the_box w k).
  { intros j s J. apply put_other. intros ->. congruence. }
  assert (T : forall j o', through tz w j o' = (w', n, r) -> Some j = goes_to h o -> the_box w' k = the_box w k).
  { intros j o' X J. unfold through in X. destruct (step _ _ _) as [[s n'] r']. injection X as <- _ _. now apply P. }
  destruct o as [|id host|m j|m uid sp now|m i sp now|m j q|j q x|i name typ|m|c a|c a|c parsed p cr sync]; cbn [wstep goes_to] in *.
  - injection E as <- _ _. reflexivity.
  - injection E as <- _ _. unfold the_box. cbn. now rewrite app_nth1.
  - injection E as <- _ _. reflexivity.
  - unfold by_manager in E. rewrite A1 in E. destruct (told_storage h m) as [j|]; [eapply T; eauto|now injection E as <- _ _].
  - unfold by_manager in E. rewrite A1 in E. destruct (told_storage h m) as [j|]; [eapply T; eauto|now injection E as <- _ _].
  - unfold by_manager in E. rewrite A1 in E. destruct (told_storage h m) as [j'|]; [|now injection E as <- _ _].
    unfold delete_by_id in E. destruct (ddel _ _); injection E as <- _ _; [now apply P|reflexivity..].
  - eapply T; eauto.
  - destruct (apart_shape tz w (OAttendee i name typ) w' n r I E) as (B & _). unfold the_box. now rewrite B.
  - injection E as <- _ _. reflexivity.
  - destruct (apart_shape tz w (OAddAttendee c a) w' n r I E) as (B & _). unfold the_box. now rewrite B.
  - destruct (apart_shape tz w (ORemoveAttendee c a) w' n r I E) as (B & _). unfold the_box. now rewrite B.
  - rewrite (manager_told tz w h c A R), A1 in E. destruct (told_storage h (told_manager h c)) as [j|]; [eapply T; eauto|now injection E as <- _ _].
Qed.
Print Assumptions C86_others.

(** a method called on the [j]-th event *)
Definition on_it (j : nat) (x : method) (o : op) : Prop :=
  match o with
  | OInvite r l => r = j /\ x = MInvite l
  | OSetStatus r a st => r = j /\ x = MSetStatus a st
  | OSetRole r a role => r = j /\ x = MSetRole a role
  | OAdjust r => r = j /\ x = MAdjust
  | OAssign r sp => r = j /\ x = MAssign sp
  | OSpecify r sp => r = j /\ x = MSpecify sp
  | _ => False
  end.

(** the same call, in the single-storage system *)
Definition plain (s : system) (u : string) (o : wop) (o' : op) : Prop :=
  match o with
  | WCreate _ uid sp now => o' = OCreate uid sp now
  | WAttendeeCreate _ i sp now => o' = OAttendeeCreate i sp now
  | WDelete _ _ _ => exists j, get_event s u = Ok j /\ o' = ODelete j
  | WEvent _ j x => on_it j x o'
  | WImport c parsed p cr sync => o' = OImport c parsed p cr sync
  | _ => False
  end.
Definition uid_given (w : world) (o : wop) : string :=
  match o with WDelete _ k j => e_uid (obj (view w k) j) | _ => ""%string end.

(** A call that goes to a storage does, announces and returns what it would with
    that storage alone.  deleteEvent goes by the id of the event it is given, even
    if that event is in another storage. *)
Theorem C86_same_call tz w h o w' n r k : whistory tz w h -> refers w o -> wstep tz w o = (w', n, r) ->
  goes_to h o = Some k ->
  (exists o', plain (view w k) (uid_given w o) o o' /\ step (cf_of tz w k) (view w k) o' = (view w' k, n, r))
  \/ ((exists m j q, o = WDelete m j q) /\ get_event (view w k) (uid_given w o) = Raise KeyError /\ w' = w /\ n = [] /\ r = Raise KeyError).
Proof.
  intros H R E G. pose proof (whistory_agrees tz w h H) as A. pose proof A as (A1 & A2 & A3 & A4 & A5 & A6 & A7).
  assert (T : forall o', at_storage o' -> (k < List.length (w_boxes w))%nat -> through tz w k o' = (w', n, r) -> step (cf_of tz w k) (view w k) o' = (view w' k, n, r)).
  { intros o' S K X. destruct (through_spec tz w k o' w' n r K (A5 k K) S X) as (s & Y & -> & V). now rewrite V. }
  destruct o as [|id host|m j|m uid sp now|m i sp now|m j q|j q x|i name typ|m|c a|c a|c parsed p cr sync]; cbn [wstep goes_to plain] in *; try discriminate.
  - unfold by_manager in E. pose proof (A1 m) as M. rewrite G in M. rewrite M in E. left. eexists. split; [reflexivity|]. apply T; [exact I|eauto|exact E].
  - unfold by_manager in E. pose proof (A1 m) as M. rewrite G in M. rewrite M in E. left. eexists. split; [reflexivity|]. apply T; [exact I|eauto|exact E].
  - unfold by_manager in E. pose proof (A1 m) as M. rewrite G in M. rewrite M in E.
    destruct (delete_spec tz w k _ w' n r (A3 m k M) (A5 k (A3 m k M)) E) as [(l & s & L & S & -> & V & _)|(D1 & D2 & D3 & D4)].
    + left. exists (ODelete l). split; [exists l; split; [exact L|reflexivity]|]. now rewrite V.
    + right. split; [eauto|]. auto.
  - injection G as ->. destruct R as [K _]. left. exists (call q x). split; [destruct x; split; reflexivity|]. apply T; [destruct x; exact I|exact K|exact E].
  - rewrite (manager_told tz w h c A R) in E. pose proof (A1 (told_manager h c)) as M. rewrite G in M. rewrite M in E.
    left. eexists. split; [reflexivity|]. apply T; [exact I|eauto|exact E].
Qed.
Print Assumptions C86_same_call.

(** * C87: a manager is a window on the storage it was given last *)
(** the events a manager has are those the calls that went to its storage
    announced as created and not as deleted since, whichever manager or calendar
    they were made through *)
Theorem C87_contents tz w h m k uid : whistory tz w h -> told_storage h m = Some k ->
  w_has_event w m uid = Ok (alive (notes_for k [] h) uid false).
Proof.
  intros H T. pose proof (whistory_agrees tz w h H) as (A1 & A2 & A3 & A4 & A5 & A6 & A7).
  assert (M : storage_of w m = Some k) by now rewrite A1. rewrite <- A6 by eauto.
  unfold w_has_event, w_get_event. rewrite M. unfold has_event, get_event. now destruct (dget _ _).
Qed.
Print Assumptions C87_contents.

(** before it is given one, every call raises and nothing happens *)
Theorem C87_unset tz w h m : whistory tz w h -> told_storage h m = None ->
  (forall uid sp now, wstep tz w (WCreate m uid sp now) = (w, [], Raise AttributeError))
  /\ (forall i sp now, wstep tz w (WAttendeeCreate m i sp now) = (w, [], Raise AttributeError))
  /\ (forall k r, wstep tz w (WDelete m k r) = (w, [], Raise AttributeError))
  /\ (forall uid, w_get_event w m uid = Raise AttributeError /\ w_has_event w m uid = Raise AttributeError)
  /\ (forall c parsed p cr sync, (c < List.length (w_cals w))%nat -> told_manager h c = m ->
        exists x, wstep tz w (WImport c parsed p cr sync) = (w, [], Raise x) /\ w_cal_events w c p cr = Raise x).
Proof.
  intros H T. pose proof (whistory_agrees tz w h H) as A. pose proof A as (A1 & _).
  assert (M : storage_of w m = None) by now rewrite A1.
  split; [intros; cbn [wstep]; unfold by_manager; now rewrite M|]. split; [intros; cbn [wstep]; unfold by_manager; now rewrite M|].
  split; [intros; cbn [wstep]; unfold by_manager; now rewrite M|].
  split; [intros uid; unfold w_has_event, w_get_event; now rewrite M|].
  intros c parsed p cr sync C MC. cbn [wstep]. unfold w_cal_events, import_nowhere. rewrite (manager_told tz w h c A C), MC, M.
  assert (X : exists y, cal_attendees (mkSys [] [] (w_source w) (map snd (w_cals w))) c = y /\ y <> OutOfFuel).
  { eexists. split; [reflexivity|]. unfold cal_attendees. generalize (dkeys (cal (mkSys [] [] (w_source w) (map snd (w_cals w))) c)). intros l.
    induction l as [|i l IH]; [discriminate|]. cbn [rmap]. unfold source_get at 1. destruct (dget _ i); cbn [rbind]; [|discriminate].
    destruct (rmap _ l); cbn [rbind]; congruence. }
  destruct X as ([l|x|] & -> & NF); cbn [rbind]; [eauto|eauto|congruence].
Qed.
Print Assumptions C87_unset.

(** a calendar shows events of its manager's storage only *)
Theorem C87_calendar tz w h c p cr l : whistory tz w h -> (c < List.length (w_cals w))%nat -> w_cal_events w c p cr = Ok l ->
  exists k, told_storage h (told_manager h c) = Some k
    /\ forall e, In e l -> exists uid r, get_event (view w k) uid = Ok r /\ e = obj (view w k) r /\ e_uid e = uid.
Proof.
  intros H C E. pose proof (whistory_agrees tz w h H) as A. pose proof A as (A1 & A2 & A3 & A4 & A5 & A6 & A7).
  unfold w_cal_events in E. rewrite (manager_told tz w h c A C) in E.
  destruct (storage_of w (told_manager h c)) as [k|] eqn:M; [|destruct (cal_attendees _ c); discriminate].
  exists k. split; [now rewrite <- A1|]. intros e He. pose proof (reachable_store _ _ (A5 k (A3 _ k M))) as (ND & ST).
  destruct (cal_events_stored _ _ _ _ _ e E He) as (u & r & Hr & ->). pose proof (in_dget _ _ _ ND Hr) as D.
  exists u, r. unfold get_event. rewrite D. split; [reflexivity|]. split; [reflexivity|]. now destruct (ST u r D) as (_ & -> & _).
Qed.
Print Assumptions C87_calendar.

(** two storages with a manager each, and a third manager that moves from one to the other *)
Definition wrun (tz : Z -> Z) (ops : list wop) : world * list entry :=
  fold_left (fun wh o => let '(w, n, r) := wstep tz (fst wh) o in (w, snd wh ++ [(o, n, r)])) ops (winit, []).

Fixpoint all_refer (tz : Z -> Z) (w : world) (ops : list wop) : Prop :=
  match ops with [] => True | o :: l => refers w o /\ all_refer tz (fst (fst (wstep tz w o))) l end.

Lemma wrun_from tz ops : forall w h, whistory tz w h -> all_refer tz w ops ->
  let wh := fold_left (fun wh o => let '(w, n, r) := wstep tz (fst wh) o in (w, snd wh ++ [(o, n, r)])) ops (w, h) in
  whistory tz (fst wh) (snd wh).
Proof.
  induction ops as [|o ops IH]; intros w h H A; [exact H|]. destruct A as [A1 A2]. cbn [fold_left fst snd].
  destruct (wstep tz w o) as [[w' n] r] eqn:E. apply IH; [|exact A2]. econstructor; eassumption.
Qed.

Lemma wrun_history tz ops : all_refer tz winit ops -> whistory tz (fst (wrun tz ops)) (snd (wrun tz ops)).
Proof. apply wrun_from. constructor. Qed.

Definition ws (title : string) : spec :=
  mkSpec (738886 * DAY + 9 * HOUR) (Some HOUR) title "" "" "CONFIRMED" None false [] false "PUBLIC" None ann [].
Definition two : list wop :=
  [WStorage "one" "host"; WStorage "two" "host"; WManager; WManager; WManager; WSetStorage 0 0; WSetStorage 1 1;
   WAttendee "ann" "Ann" "INDIVIDUAL"; WCalendar 2; WAddAttendee 0 ann;
   WCreate 0 (Some "x"%string) (ws "first") 0; WCreate 1 (Some "x"%string) (ws "second") 0;
   WCreate 2 None (ws "nowhere") 0; WSetStorage 2 1].

Example C86_case : let w := fst (wrun (fun _ => 0) two) in let h := snd (wrun (fun _ => 0) two) in
  whistory (fun _ => 0) w h
  /\ map snd h = [Ok tt; Ok tt; Ok tt; Ok tt; Ok tt; Ok tt; Ok tt; Ok tt; Ok tt; Ok tt; Ok tt; Ok tt; Raise AttributeError; Ok tt]
  /\ told_storage h 0 = Some 0%nat /\ told_storage h 2 = Some 1%nat /\ told_manager h 0 = 2%nat
  /\ map e_title (stored (view w 0)) = ["first"%string] /\ map e_title (stored (view w 1)) = ["second"%string]
  /\ w_has_event w 2 "x" = Ok true
  (* the event of storage 0 deleted through manager 2: the one of storage 1 goes *)
  /\ refers w (WDelete 2 0 0) /\ goes_to h (WDelete 2 0 0) = Some 1%nat
  /\ let w' := fst (fst (wstep (fun _ => 0) w (WDelete 2 0 0))) in
     map e_title (stored (view w' 0)) = ["first"%string] /\ stored (view w' 1) = [] /\ the_box w' 0 = the_box w 0.
Proof.
  split; [apply wrun_history; vm_compute; repeat split; lia|]. vm_compute. repeat split; lia.
Qed.

(** the calendar of [two] was made with manager 2, which first had no storage and
    then shares the second with manager 1 *)
Example C87_case : let w := fst (wrun (fun _ => 0) two) in let h := snd (wrun (fun _ => 0) two) in
  let w1 := fst (wrun (fun _ => 0) (removelast two)) in let h1 := snd (wrun (fun _ => 0) (removelast two)) in
  whistory (fun _ => 0) w h /\ whistory (fun _ => 0) w1 h1
  /\ told_storage h1 2 = None /\ told_storage h 2 = Some 1%nat
  /\ alive (notes_for 1 [] h) "x" false = true
  /\ w_has_event w1 2 "x" = Raise AttributeError /\ w_has_event w 2 "x" = Ok true /\ w_has_event w 2 "y" = Ok false
  /\ (exists l, w_cal_events w 0 (None, None) None = Ok l /\ map e_title l = ["second"%string]).
Proof.
  split; [apply wrun_history; vm_compute; repeat split; lia|]. split; [apply wrun_history; vm_compute; repeat split; lia|].
  do 6 (split; [vm_compute; reflexivity|]). eexists. split; vm_compute; reflexivity.
Qed.

(** * C88: ids made by different storages *)
Lemma dec_no_dash n : forall i, String.get i (dec n) <> Some "-"%char.
Proof.
  unfold dec. generalize (Nat.to_uint n). intros d. induction d as [|d IH|d IH|d IH|d IH|d IH|d IH|d IH|d IH|d IH|d IH]; intros [|i]; cbn; try discriminate; apply IH.
Qed.

Lemma last_dash a : forall b x y, (forall i, String.get i x <> Some "-"%char) -> (forall i, String.get i y <> Some "-"%char) ->
  (a ++ "-" ++ x = b ++ "-" ++ y)%string -> a = b /\ x = y.
Proof.
  assert (H : forall c (b x y : string), (forall i, String.get i x <> Some "-"%char) -> (x = c ++ "-" ++ y)%string -> False).
  { intros c b x y HX E. apply (HX (String.length c)). rewrite E. clear. induction c; [reflexivity|exact IHc]. }
  induction a as [|ch a IH]; intros [|ch' b] x y HX HY E; cbn in E.
  - split; [reflexivity|]. now injection E.
  - exfalso. injection E as _ E. exact (H b ""%string x y HX E).
  - exfalso. injection E as _ E. symmetry in E. exact (H a ""%string y x HY E).
  - injection E as -> E. destruct (IH b x y HX HY E) as [-> ->]. auto.
Qed.

Lemma generated_apart cf cf' now now' n n' : cf_host cf = cf_host cf' -> cf_storage_id cf <> cf_storage_id cf' ->
  generated_id cf now n <> generated_id cf' now' n'.
Proof.
  intros HH HI E. unfold generated_id in E.
  apply app_inj_s in E as [_ E]; [|now rewrite !iso8601_length]. apply app_inv_head_s in E. rewrite HH in E.
  assert (E' : ((cf_storage_id cf ++ "-" ++ dec n) ++ "@" ++ cf_host cf' = (cf_storage_id cf' ++ "-" ++ dec n') ++ "@" ++ cf_host cf')%string).
  { rewrite !app_assoc3. exact E. }
  apply app_inv_tail_s in E'. apply last_dash in E' as [E' _]; [contradiction|apply dec_no_dash..].
Qed.

(** a call that makes an event and its id *)
Definition makes_id (o : wop) : Prop := match o with WCreate _ None _ _ | WAttendeeCreate _ _ _ _ => True | _ => False end.

Lemma made_id tz w h o w' n k : whistory tz w h -> makes_id o -> goes_to h o = Some k -> wstep tz w o = (w', n, Ok tt) ->
  exists now, n = [NCreated (generated_id (cf_of tz w k) now (List.length (b_store (the_box w k))))].
Proof.
  intros H M G E. pose proof (whistory_agrees tz w h H) as (A1 & _).
  assert (C : forall sp now, through tz w k (OCreate None sp now) = (w', n, Ok tt) -> n = [NCreated (generated_id (cf_of tz w k) now (List.length (b_store (the_box w k))))]).
  { intros sp now X. unfold through in X. cbn [step] in X. unfold create_event, drop, sfail in X. cbn [view sys_store] in X.
    destruct (new_event _ sp); cbn in X; [injection X as _ X; congruence|discriminate..]. }
  destruct o as [|? ?|? ?|m uid sp now|m i sp now|? ? ?|? ? ?|? ? ?|?|? ?|? ?|? ? ? ? ?]; try (destruct uid); cbn in M; try contradiction; cbn [wstep goes_to] in *; unfold by_manager in E; rewrite A1, G in E.
  - exists now. eapply C. exact E.
  - exists now. apply (C (with_spec_organizer sp i) now). exact E.
Qed.

(** Storages of one host with different ids never make the same id, whenever and
    in whatever states the two calls are made. *)
Theorem C88_ids_partial tz w h o w' u k tz2 w2 h2 o2 w2' u2 k2 :
  whistory tz w h -> makes_id o -> goes_to h o = Some k -> wstep tz w o = (w', [NCreated u], Ok tt) ->
  whistory tz2 w2 h2 -> makes_id o2 -> goes_to h2 o2 = Some k2 -> wstep tz2 w2 o2 = (w2', [NCreated u2], Ok tt) ->
  b_host (the_box w k) = b_host (the_box w2 k2) -> b_id (the_box w k) <> b_id (the_box w2 k2) ->
  u <> u2.
Proof.
  intros H1 M1 G1 E1 H2 M2 G2 E2 HH HI.
  destruct (made_id tz w h o w' _ k H1 M1 G1 E1) as (n1 & [= ->]). destruct (made_id tz2 w2 h2 o2 w2' _ k2 H2 M2 G2 E2) as (n2 & [= ->]).
  now apply generated_apart.
Qed.
Print Assumptions C88_ids_partial.

Example C88_case : let w := fst (wrun (fun _ => 0) two) in let t := 738886 * DAY in
  snd (fst (wstep (fun _ => 0) w (WCreate 0 None (ws "a") t))) = [NCreated "20240101T000000-one-1@host"]
  /\ snd (fst (wstep (fun _ => 0) w (WCreate 1 None (ws "b") t))) = [NCreated "20240101T000000-two-1@host"].
Proof. vm_compute. auto. Qed.

(** what the clock says during the call *)
Definition clock_of (o : wop) : Z := match o with WCreate _ _ _ now | WAttendeeCreate _ _ _ now => now | _ => 0 end.

Lemma last_at a : forall b x y, (forall i, String.get i x <> Some "@"%char) -> (forall i, String.get i y <> Some "@"%char) ->
  (a ++ "@" ++ x = b ++ "@" ++ y)%string -> a = b /\ x = y.
Proof.
  assert (H : forall c (x y : string), (forall i, String.get i x <> Some "@"%char) -> (x = c ++ "@" ++ y)%string -> False).
  { intros c x y HX E. apply (HX (String.length c)). rewrite E. clear. induction c; [reflexivity|exact IHc]. }
  induction a as [|ch a IH]; intros [|ch' b] x y HX HY E; cbn in E.
  - split; [reflexivity|]. now injection E.
  - exfalso. injection E as _ E. exact (H b x y HX E).
  - exfalso. injection E as _ E. symmetry in E. exact (H a y x HY E).
  - injection E as -> E. destruct (IH b x y HX HY E) as [-> ->]. auto.
Qed.

Lemma made_id_at tz w h o w' u k : whistory tz w h -> makes_id o -> goes_to h o = Some k -> wstep tz w o = (w', [NCreated u], Ok tt) ->
  u = generated_id (cf_of tz w k) (clock_of o) (List.length (b_store (the_box w k))).
Proof.
  intros H M G E. pose proof (whistory_agrees tz w h H) as (A1 & _).
  assert (C : forall sp now, through tz w k (OCreate None sp now) = (w', [NCreated u], Ok tt) -> u = generated_id (cf_of tz w k) now (List.length (b_store (the_box w k)))).
  { intros sp now X. unfold through in X. cbn [step] in X. unfold create_event, drop, sfail in X. cbn [view sys_store] in X.
    destruct (new_event _ sp); cbn in X; [injection X as _ X; congruence|discriminate..]. }
  destruct o as [|? ?|? ?|m uid sp now|m i sp now|? ? ?|? ? ?|? ? ?|?|? ?|? ?|? ? ? ? ?]; try (destruct uid); cbn in M; try contradiction; cbn [wstep goes_to clock_of] in *; unfold by_manager in E; rewrite A1, G in E.
  - eapply C. exact E.
  - apply (C (with_spec_organizer sp i) now). exact E.
Qed.

(** Storages of one host, or of hosts whose names contain no "@", make the same id
    exactly if everything coincides: the host, the second, the storage's id and the
    number of events it holds. *)
Theorem C88_same_iff tz w h o w' u k tz2 w2 h2 o2 w2' u2 k2 :
  whistory tz w h -> makes_id o -> goes_to h o = Some k -> wstep tz w o = (w', [NCreated u], Ok tt) ->
  whistory tz2 w2 h2 -> makes_id o2 -> goes_to h2 o2 = Some k2 -> wstep tz2 w2 o2 = (w2', [NCreated u2], Ok tt) ->
  dt_ok (clock_of o) = true -> dt_ok (clock_of o2) = true ->
  b_host (the_box w k) = b_host (the_box w2 k2)
  \/ (forall i, String.get i (b_host (the_box w k)) <> Some "@"%char) /\ (forall i, String.get i (b_host (the_box w2 k2)) <> Some "@"%char) ->
  (u = u2 <-> b_host (the_box w k) = b_host (the_box w2 k2) /\ b_id (the_box w k) = b_id (the_box w2 k2)
              /\ clock_of o / SECOND = clock_of o2 / SECOND
              /\ List.length (b_store (the_box w k)) = List.length (b_store (the_box w2 k2))).
Proof.
  intros H1 M1 G1 E1 H2 M2 G2 E2 K1 K2 HH.
  apply made_id_at with (k := k) (h := h) in E1; auto. apply made_id_at with (k := k2) (h := h2) in E2; auto. subst u u2.
  split.
  - intros E. unfold generated_id in E. apply app_inj_s in E as [EI E]; [|now rewrite !iso8601_length]. apply app_inv_head_s in E.
    cbn [cf_of cf_storage_id cf_host] in E. apply iso8601_inj in EI; auto.
    assert (E' : ((b_id (the_box w k) ++ "-" ++ dec (List.length (b_store (the_box w k)))) ++ "@" ++ b_host (the_box w k)
      = (b_id (the_box w2 k2) ++ "-" ++ dec (List.length (b_store (the_box w2 k2)))) ++ "@" ++ b_host (the_box w2 k2))%string).
    { rewrite !app_assoc3. exact E. }
    assert (S : (b_id (the_box w k) ++ "-" ++ dec (List.length (b_store (the_box w k))) = b_id (the_box w2 k2) ++ "-" ++ dec (List.length (b_store (the_box w2 k2))))%string
      /\ b_host (the_box w k) = b_host (the_box w2 k2)).
    { destruct HH as [HH|[N1 N2]]; [|now apply last_at]. split; [|exact HH]. rewrite HH in E'. now apply app_inv_tail_s in E'. }
    destruct S as [S SH]. apply last_dash in S as [SI SD]; [|apply dec_no_dash..]. apply dec_inj in SD. auto.
  - intros (A & B & C & D). unfold generated_id. cbn [cf_of cf_storage_id cf_host]. rewrite A, B, D. f_equal.
    assert (X : dt_date (clock_of o) = dt_date (clock_of o2)) by (unfold dt_date, DAY, SECOND in *; lia).
    assert (Y : dt_time (clock_of o) / SECOND = dt_time (clock_of o2) / SECOND) by (unfold dt_time, DAY, SECOND in *; lia).
    unfold iso8601. now rewrite X, Y.
Qed.
Print Assumptions C88_same_iff.

(** the restriction on the hosts is needed *)
Example C88_at : generated_id (mkConfig "a" "b-0@h" (fun _ => 0)) (738886 * DAY) 0
  = generated_id (mkConfig "a-0@b" "h" (fun _ => 0)) (738886 * DAY) 0.
Proof. vm_compute. reflexivity. Qed.
(** two storages of one id: equal in the same second, different in the next *)
Example C88_same_ex : let l := [WStorage "one" "host"; WStorage "one" "host"; WManager; WManager; WSetStorage 0 0; WSetStorage 1 1] in
  let w := fst (wrun (fun _ => 0) l) in
  snd (fst (wstep (fun _ => 0) w (WCreate 0 None (ws "a") (738886 * DAY)))) = [NCreated "20240101T000000-one-0@host"]
  /\ snd (fst (wstep (fun _ => 0) w (WCreate 1 None (ws "b") (738886 * DAY + 1)))) = [NCreated "20240101T000000-one-0@host"]
  /\ snd (fst (wstep (fun _ => 0) w (WCreate 1 None (ws "b") (738886 * DAY + SECOND)))) = [NCreated "20240101T000001-one-0@host"].
Proof. vm_compute. auto. Qed.

(** With one storage id the two can coincide, e.g. when two storages of the same
    id are made. *)
Theorem C88_ids_refuted : exists w h o o2 w' w2' u k k2, whistory (fun _ => 0) w h /\ makes_id o /\ makes_id o2
  /\ goes_to h o = Some k /\ goes_to h o2 = Some k2 /\ k <> k2
  /\ wstep (fun _ => 0) w o = (w', [NCreated u], Ok tt) /\ wstep (fun _ => 0) w' o2 = (w2', [NCreated u], Ok tt).
Proof.
  set (l := [WStorage "one" "host"; WStorage "one" "host"; WManager; WManager; WSetStorage 0 0; WSetStorage 1 1]).
  exists (fst (wrun (fun _ => 0) l)), (snd (wrun (fun _ => 0) l)), (WCreate 0 None (ws "a") (738886 * DAY)), (WCreate 1 None (ws "b") (738886 * DAY)).
  do 2 eexists. exists "20240101T000000-one-0@host"%string, 0%nat, 1%nat.
  split; [apply wrun_history; vm_compute; repeat split; lia|]. split; [exact I|]. split; [exact I|].
  split; [reflexivity|]. split; [reflexivity|]. split; [discriminate|]. split; vm_compute; reflexivity.
Qed.
Print Assumptions C88_ids_refuted.
