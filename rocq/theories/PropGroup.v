(** Property theorems C162: what is asked about a group is what is asked about its members, put together. *)
From Verif Require Import Base PyDate DateFacts Recurrent SpecRecur Util UtilProofs CalTime TimeProofs Event Storage
  QueryProofs BlockProofs PropQuery PropFree.
From Coq Require Import ZifyBool Sorting.Sorted Sorting.Permutation.
Ltac Zify.zify_post_hook ::= Z.div_mod_to_equations.
Local Opaque ord2ymd year_of month_of day_of ymd2ord days_in_month is_leap.

(** ** Merged periods are determined by what they cover *)
(** the periods with their ends, and the instants between two instants: [u] counts half units *)
Definition reaches (l : list (Z * Z)) (u : Z) : Prop := exists s e, In (s, e) l /\ 2 * s <= u <= 2 * e.
Definition neat (l : list (Z * Z)) : Prop := forall x, In x l -> wf x \/ hidden l x.

Lemma reaches_app l1 l2 u : reaches (l1 ++ l2) u <-> reaches l1 u \/ reaches l2 u.
Proof.
  split.
  - intros (s & e & H & T). apply in_app_iff in H as [H|H]; [left|right]; exists s, e; auto.
  - intros [(s & e & H & T)|(s & e & H & T)]; exists s, e; (split; [apply in_app_iff; auto|exact T]).
Qed.

Lemma merged_reaches l u : neat l -> (reaches (remove_overlaps l) u <-> reaches l u).
Proof.
  intros N. pose proof (remove_overlaps_wf l N) as W. rewrite Forall_forall in W. split.
  - intros (s & e & H & T). pose proof (W _ H) as SE. unfold wf in SE. cbn [fst snd] in SE.
    assert (G : forall t, s <= t < e -> exists a b, In (a, b) l /\ a <= t < b).
    { intros t R. apply (remove_overlaps_covers l t). exists s, e. auto. }
    destruct (Z.eq_dec s e) as [<-|NE].
    + destruct (remove_overlaps_parts l s s H) as [(e' & E') _]. destruct (N _ E') as [V|(a & b & AB & V)].
      * unfold wf in V. cbn [fst snd] in V. exists s, e'. split; [exact E'|lia].
      * cbn [fst] in V. exists a, b. split; [exact AB|lia].
    + destruct (Z.eq_dec u (2 * e)) as [->|NU].
      * destruct (G (e - 1) ltac:(lia)) as (a & b & AB & R). exists a, b. split; [exact AB|lia].
      * destruct (G (u / 2) ltac:(lia)) as (a & b & AB & R). exists a, b. split; [exact AB|lia].
  - intros (a & b & H & T). destruct (remove_overlaps_keeps l a b H) as (s & e & R & L). exists s, e. split; [exact R|lia].
Qed.

Definition doubled (x : Z * Z) : Z * Z := (2 * fst x, 2 * snd x + 1).
Lemma doubled_gapped l : gapped l -> gapped (map doubled l).
Proof.
  induction l as [|x l IH]; [auto|]. destruct l as [|y l]; [cbn; auto|]. intros G. cbn [gapped] in G. destruct G as [G1 G2]. specialize (IH G2).
  cbn [map gapped]. split; [unfold doubled; cbn [fst snd]; lia|exact IH].
Qed.
Lemma doubled_covers l u : covers (map doubled l) u <-> reaches l u.
Proof.
  split.
  - intros (s & e & H & T). apply in_map_iff in H as ([a b] & X & H). unfold doubled in X. cbn [fst snd] in X.
    assert (S : 2 * a = s) by congruence. assert (E : 2 * b + 1 = e) by congruence. exists a, b. split; [exact H|lia].
  - intros (a & b & H & T). exists (2 * a), (2 * b + 1). split; [|lia]. apply in_map_iff. exists (a, b). auto.
Qed.
Lemma doubled_inj l1 : forall l2, map doubled l1 = map doubled l2 -> l1 = l2.
Proof.
  induction l1 as [|[a b] l1 IH]; intros [|[c d] l2] E; try discriminate; [reflexivity|].
  cbn [map] in E. unfold doubled in E at 1 3. cbn [fst snd] in E. 
  assert (E1 : 2 * a = 2 * c) by congruence. assert (E2 : 2 * b + 1 = 2 * d + 1) by congruence. assert (E3 : map doubled l1 = map doubled l2) by congruence.
  apply f_equal2; [apply f_equal2; lia|now apply IH].
Qed.

Lemma reaches_unique l1 l2 : gapped l1 -> gapped l2 -> Forall wf l1 -> Forall wf l2 ->
  (forall u, reaches l1 u <-> reaches l2 u) -> l1 = l2.
Proof.
  intros G1 G2 W1 W2 R. apply doubled_inj. apply canonical_unique; try now apply doubled_gapped.
  - rewrite Forall_forall in *. intros x H. apply in_map_iff in H as (y & <- & H). specialize (W1 y H). unfold wf, nonempty, doubled in *. cbn [fst snd]. lia.
  - rewrite Forall_forall in *. intros x H. apply in_map_iff in H as (y & <- & H). specialize (W2 y H). unfold wf, nonempty, doubled in *. cbn [fst snd]. lia.
  - intros t. rewrite !doubled_covers. apply R.
Qed.

Lemma merged_unique l1 l2 : neat l1 -> neat l2 -> (forall u, reaches l1 u <-> reaches l2 u) -> remove_overlaps l1 = remove_overlaps l2.
Proof.
  intros N1 N2 R. apply reaches_unique; try apply remove_overlaps_gapped; try now apply remove_overlaps_wf.
  intros u. rewrite !merged_reaches by assumption. apply R.
Qed.

(** ** Blocked periods *)
Definition taken (F : nat) (evs : list event) (b e tb te : Z) (a : attendee) : res (list (Z * Z)) :=
  let* occs := get_occurrences_segmented F evs (Some b, Some e) (Some (mk_criteria (AMany [a]) None None None None)) in
  rconcat_map (blocked_of a b e tb te) occs.

Lemma rconcat_app {A B} (f : A -> res (list B)) l1 l2 :
  rconcat_map f (l1 ++ l2) = let* x := rconcat_map f l1 in let* y := rconcat_map f l2 in Ok (x ++ y).
Proof.
  induction l1 as [|a l1 IH]; cbn [rconcat_map app].
  - destruct (rconcat_map f l2); reflexivity.
  - rewrite IH. destruct (f a); try reflexivity. cbn [rbind]. destruct (rconcat_map f l1); try reflexivity. cbn [rbind].
    destruct (rconcat_map f l2); try reflexivity. cbn [rbind]. now rewrite app_assoc.
Qed.

(** what somebody's events contribute lies within a day *)
Lemma taken_in F evs b e tb te a x y : evs_ok evs -> dt_ok e = true -> window_ok tb te ->
  taken F evs b e tb te a = Ok y -> In x y ->
  exists s t, x = clipped tb te s t /\ b <= s /\ s <= t <= e /\ s < e /\ (s < t -> t <= (dt_date s + 1) * DAY).
Proof.
  intros OK OE W Y Hx. unfold taken in Y.
  destruct (get_occurrences_segmented F evs (Some b, Some e) (Some (mk_criteria (AMany [a]) None None None None))) as [occs| |] eqn:G; try discriminate.
  cbn [rbind] in Y. apply (rconcat_in _ _ _ Y) in Hx as (o & yo & O1 & O2 & O3).
  destruct (segmented_within _ _ _ _ _ _ OK OE G o O1) as (d & D1 & D2 & D3 & D4 & D5 & D6 & D & D7 & D8).
  destruct a as [i|].
  2:{ exfalso. destruct D4 as (_ & _ & D4). destruct (D4 _ eq_refl) as (j & st & [J|[]] & _). discriminate. }
  fold (att_criteria (Some i)) in D4. apply att_satisfies in D4.
  assert (DD : 0 < d -> o_dtstart o + d <= (dt_date (o_dtstart o) + 1) * DAY) by (intros P; unfold dt_date, DAY in *; lia).
  destruct (proj1 (blocked_of_spec _ _ _ _ _ _ _ _ W D1 D2 D5 D4 O2 x) O3) as (_ & L & ->).
  exists (o_dtstart o), (o_dtstart o + d). split; [reflexivity|]. split; [exact D5|]. split; [lia|]. split; [exact L|].
  intros P. apply DD. lia.
Qed.

(** what is merged is neat *)
Lemma blocked_neat F evs atts b e tb te bl k nb : evs_ok evs -> dt_ok b = true -> dt_ok e = true -> window_ok tb te ->
  rconcat_map (taken F evs b e tb te) atts = Ok bl ->
  (if dt_time e =? 0 then date_add (dt_date e) (-1) else Ok (dt_date e)) = Ok k ->
  night_blocks (night_fuel (dt_date b) k) tb te (dt_date b) k = Ok nb -> neat (dedup_pairs bl ++ nb).
Proof.
  intros OK OB OE W BL ED NB.
  assert (K : k = dt_date (e + DAY - 1) - 1).
  { apply dt_ok_date in OE. unfold date_add in ED. destruct (dt_time e =? 0) eqn:TZ.
    - destruct ((1 <=? dt_date e + -1) && (dt_date e + -1 <=? MAXORD)); [|discriminate].
      assert (X : dt_date e + -1 = k) by congruence. unfold dt_date, dt_time, DAY in *. lia.
    - assert (X : dt_date e = k) by congruence. unfold dt_date, dt_time, DAY in *. lia. }
  assert (N := night_in _ _ _ _ _ _ NB ltac:(unfold night_fuel; lia)). destruct W as [W1 W2].
  intros x Hx. apply in_app_iff in Hx as [Hx|Hx].
  - apply (proj1 (dedup_in _ _)) in Hx. apply (rconcat_in _ _ _ BL) in Hx as (a & ya & A1 & A2 & A3).
    destruct (taken_in _ _ _ _ _ _ _ _ _ OK OE (conj W1 W2) A2 A3) as (s & t & -> & B1 & B2 & B3 & B4). unfold wf, hidden, clipped. cbn [fst snd].
    set (D := dt_date s) in *.
    assert (DR : dt_date b <= D <= k) by (subst D; unfold dt_date, DAY in *; lia).
    destruct (Z_le_gt_dec (Z.max s (combine D tb)) (Z.min t (combine D te))) as [L|L]; [now left|right].
    destruct (Z_lt_le_dec t (combine D tb)) as [C|C].
    + exists (combine D 0), (combine D tb). split.
      * apply in_app_iff. right. apply N. exists D. auto.
      * subst D. unfold combine, dt_date, DAY in *. lia.
    + exists (combine D te), (combine (D + 1) 0). split.
      * apply in_app_iff. right. apply N. exists D. auto.
      * subst D. unfold combine, dt_date, DAY in *. lia.
  - apply N in Hx as (j & _ & [-> | ->]); left; unfold wf, combine, DAY in *; cbn [fst snd]; lia.
Qed.

Lemma neat_app l1 l2 : neat l1 -> neat l2 -> neat (l1 ++ l2).
Proof.
  intros N1 N2 x H. apply in_app_iff in H as [H|H]; [destruct (N1 x H) as [?|(a & b & AB & R)]|destruct (N2 x H) as [?|(a & b & AB & R)]]; auto;
    right; exists a, b; (split; [apply in_app_iff; auto|exact R]).
Qed.
Lemma neat_wf l : Forall wf l -> neat l.
Proof. intros H x X. left. rewrite Forall_forall in H. now apply H. Qed.
Lemma dedup_reaches l u : reaches (dedup_pairs l) u <-> reaches l u.
Proof. split; intros (s & e & H & T); exists s, e; (split; [|exact T]); [exact (proj1 (dedup_in _ _) H)|exact (proj2 (dedup_in _ _) H)]. Qed.

Lemma blocked_app F evs l1 l2 b e tb te : evs_ok evs -> dt_ok b = true -> dt_ok e = true -> window_ok tb te ->
  (forall out, get_blocked F evs (l1 ++ l2) b e tb te = Ok out -> exists b1 b2,
     get_blocked F evs l1 b e tb te = Ok b1 /\ get_blocked F evs l2 b e tb te = Ok b2 /\ out = remove_overlaps (b1 ++ b2))
  /\ (forall b1 b2, get_blocked F evs l1 b e tb te = Ok b1 -> get_blocked F evs l2 b e tb te = Ok b2 ->
     get_blocked F evs (l1 ++ l2) b e tb te = Ok (remove_overlaps (b1 ++ b2))).
Proof.
  intros OK OB OE W. unfold get_blocked. change (fun a : attendee => _) with (taken F evs b e tb te). rewrite rconcat_app.
  destruct (rconcat_map (taken F evs b e tb te) l1) as [x1| |] eqn:X1; cbn [rbind]; [|split; discriminate|split; discriminate].
  destruct (rconcat_map (taken F evs b e tb te) l2) as [x2| |] eqn:X2; cbn [rbind]; [|split; discriminate|split; discriminate].
  destruct (if dt_time e =? 0 then date_add (dt_date e) (-1) else Ok (dt_date e)) as [k| |] eqn:K; cbn [rbind]; [|split; discriminate|split; discriminate].
  destruct (night_blocks (night_fuel (dt_date b) k) tb te (dt_date b) k) as [nb| |] eqn:NB; cbn [rbind]; [|split; discriminate|split; discriminate].
  pose proof (blocked_neat _ _ _ _ _ _ _ _ _ _ OK OB OE W X1 K NB) as N1. pose proof (blocked_neat _ _ _ _ _ _ _ _ _ _ OK OB OE W X2 K NB) as N2.
  assert (X12 : rconcat_map (taken F evs b e tb te) (l1 ++ l2) = Ok (x1 ++ x2)) by (rewrite rconcat_app, X1, X2; reflexivity).
  pose proof (blocked_neat _ _ _ _ _ _ _ _ _ _ OK OB OE W X12 K NB) as N12.
  assert (Q : remove_overlaps (dedup_pairs (x1 ++ x2) ++ nb)
    = remove_overlaps (remove_overlaps (dedup_pairs x1 ++ nb) ++ remove_overlaps (dedup_pairs x2 ++ nb))).
  { apply merged_unique; [exact N12|apply neat_app; apply neat_wf; now apply remove_overlaps_wf|].
    intros u. rewrite !reaches_app, !merged_reaches, !reaches_app, !dedup_reaches, reaches_app by assumption. tauto. }
  split.
  - intros out E. eexists; eexists. split; [reflexivity|]. split; [reflexivity|]. rewrite <- Q. congruence.
  - intros b1 b2 E1 E2. rewrite Q. congruence.
Qed.


(** ** Events *)
Lemma match_members c e (l : list attendee) : ~ In None l ->
  (forall a, In a l -> exists b, match_attendees c e [a] = Ok b)
  /\ match_attendees c e l = Ok (existsb (fun a => match match_attendees c e [a] with Ok b => b | _ => false end) l).
Proof.
  induction l as [|a l IH]; intros N; [split; [intros a []|reflexivity]|].
  destruct IH as [I1 I2]; [intros X; apply N; now right|]. 
  assert (ONE : exists b, match_attendees c e [a] = Ok b /\ match_attendees c e (a :: l) = if b then Ok true else match_attendees c e l).
  { destruct a as [i|]; [|exfalso; apply N; now left]. cbn [match_attendees]. unfold has_attendee, get_status, get_role. cbn [attendee_id rbind].
    destruct (dget (e_state e) i); cbn [negb rbind]; [|exists false; auto].
    match goal with |- context [if ?x then Ok false else _] => destruct x end; [exists false; auto|].
    match goal with |- context [if ?x then Ok false else _] => destruct x end; [exists false; auto|exists true; auto]. }
  destruct ONE as (b & B1 & B2). split.
  - intros x [<-|H]; [eauto|now apply I1].
  - rewrite B2. destruct b; [cbn [existsb]; cbv beta; now rewrite B1|]. rewrite I2. cbn [existsb]. cbv beta. rewrite B1. reflexivity.
Qed.

Lemma match_only c c' e l : c_status c = c_status c' -> c_role c = c_role c' -> match_attendees c e l = match_attendees c' e l.
Proof. intros S R. induction l as [|a l IH]; [reflexivity|]. cbn [match_attendees]. now rewrite IH, S, R. Qed.

Definition asked (c : option criteria) (l : list attendee) (e : event) : res bool := match_criteria (restrict_attendees c l) e.

Lemma group_match c (l : list attendee) e : l <> [] -> ~ In None l ->
  (exists f, (forall a, In a l -> asked c [a] e = Ok (f a)) /\ asked c l e = Ok (existsb f l))
  \/ (exists r, (forall b, r <> Ok b) /\ asked c l e = r /\ forall a, In a l -> asked c [a] e = r).
Proof.
  intros NE NN.
  assert (CONST : forall r, asked c l e = r -> (forall a, In a l -> asked c [a] e = r) ->
    (exists f, (forall a, In a l -> asked c [a] e = Ok (f a)) /\ asked c l e = Ok (existsb f l))
    \/ (exists r, (forall b, r <> Ok b) /\ asked c l e = r /\ forall a, In a l -> asked c [a] e = r)).
  { intros r R1 R2. destruct r as [b|x|]; [left|right; exists (Raise x); split; [discriminate|auto]|right; exists OutOfFuel; split; [discriminate|auto]].
    exists (fun _ => b). split; [exact R2|]. rewrite R1. f_equal. destruct l as [|a l]; [now exfalso|]. cbn [existsb].
    destruct b; [reflexivity|]. cbn. clear. now induction l. }
  assert (SHAPE : (exists st ro cats org, forall k, k <> [] -> restrict_attendees c k = mkCrit (Some k) st ro cats org)
      \/ (exists d, forall k, restrict_attendees c k = d)).
  { destruct c as [c|]; [|left; exists None, None, None, None; reflexivity]. unfold restrict_attendees, clone. cbn [norm_attendees].
    destruct (c_attendees c) as [[|x k]|]; cbn [or_list]; [left|right|left]; repeat eexists; reflexivity. }
  destruct SHAPE as [(st & ro & cats & org & S)|(d & S)].
  2:{ apply (CONST (match_criteria d e)); intros; unfold asked; now rewrite S. }
  assert (SA : forall a, asked c [a] e = match_criteria (mkCrit (Some [a]) st ro cats org) e) by (intros a; unfold asked; rewrite S by discriminate; reflexivity).
  assert (SL : asked c l e = match_criteria (mkCrit (Some l) st ro cats org) e) by (unfold asked; rewrite S by exact NE; reflexivity).
  assert (PRE : (exists r, forall k, match_criteria (mkCrit (Some k) st ro cats org) e = r)
      \/ (forall k, match_criteria (mkCrit (Some k) st ro cats org) e = match_attendees (mkCrit None st ro None None) e k)).
  { unfold match_criteria. cbn [c_categories c_organizer c_attendees].
    destruct (match cats with Some _ => _ | None => _ end); [left; exists (Ok false); reflexivity|].
    destruct (match org with Some _ => _ | None => _ end) as [[]|x|]; cbn [rbind]; [left; exists (Ok false); reflexivity| |left; exists (Raise x); reflexivity|left; exists OutOfFuel; reflexivity].
    right. intros k. now apply match_only. }
  destruct PRE as [(r & R)|R].
  - apply (CONST r); [now rewrite SL|intros a _; now rewrite SA].
  - left. destruct (match_members (mkCrit None st ro None None) e l NN) as [M1 M2].
    exists (fun a => match match_attendees (mkCrit None st ro None None) e [a] with Ok b => b | _ => false end). split.
    + intros a A. rewrite SA, R. destruct (M1 a A) as [b ->]. reflexivity.
    + now rewrite SL, R.
Qed.

Lemma rfilter_iff {A} (f : A -> res bool) l out : rfilter f l = Ok out <->
  (forall x, In x l -> exists b, f x = Ok b) /\ out = filter (fun x => match f x with Ok b => b | _ => false end) l.
Proof.
  split.
  - intros E. split; [exact (rfilter_all _ _ _ E)|exact (rfilter_is_filter _ _ _ E)].
  - intros [H ->]. revert H. induction l as [|x l IH]; intros H; [reflexivity|]. cbn [rfilter filter].
    destruct (H x (or_introl eq_refl)) as [b ->]. cbn [rbind]. rewrite IH by (intros y Y; apply H; now right). reflexivity.
Qed.

(** a query is answered if every event can be judged, and then with those that pass *)
Definition passed (r : res bool) : bool := match r with Ok b => b | _ => false end.
Definition when (p : period) (e : event) : res bool := in_period (e_dtstart e) (e_duration e) p.

Lemma filter_filter {A} (f g : A -> bool) l : filter f (filter g l) = filter (fun x => g x && f x) l.
Proof. induction l as [|x l IH]; [reflexivity|]. cbn [filter]. destruct (g x); cbn [filter andb]; now rewrite IH. Qed.

Lemma events_iff evs p c l out : get_events evs p (Some (restrict_attendees c l)) = Ok out <->
  (forall e, In e evs -> exists b, asked c l e = Ok b /\ (b = true -> exists b', when p e = Ok b'))
  /\ out = filter (fun e => passed (asked c l e) && passed (when p e)) evs.
Proof.
  unfold get_events, matching_events. fold (asked c l). change (fun e : event => in_period (e_dtstart e) (e_duration e) p) with (when p).
  change (match_criteria (restrict_attendees c l)) with (asked c l).
  destruct (rfilter (asked c l) evs) as [m|x0|] eqn:M.
  - apply rfilter_iff in M as [M1 ->]. cbn [rbind]. rewrite rfilter_iff, filter_filter. split; intros [H1 H2]; split; try exact H2.
    + intros e He. destruct (M1 e He) as [b B]. exists b. split; [exact B|]. intros ->. apply H1. apply filter_In. split; [exact He|]. now rewrite B.
    + intros e He. apply filter_In in He as [He X]. destruct (H1 e He) as (b & B1 & B2). rewrite B1 in X. now apply B2.
  - cbn [rbind]. split; [discriminate|]. intros [H _]. 
    assert (X : rfilter (asked c l) evs = Ok (filter (fun x => match asked c l x with Ok b => b | _ => false end) evs)); [|rewrite X in M; discriminate].
    apply rfilter_iff. split; [|reflexivity]. intros e He. destruct (H e He) as (b & B & _). eauto.
  - cbn [rbind]. split; [discriminate|]. intros [H _].
    assert (X : rfilter (asked c l) evs = Ok (filter (fun x => match asked c l x with Ok b => b | _ => false end) evs)); [|rewrite X in M; discriminate].
    apply rfilter_iff. split; [|reflexivity]. intros e He. destruct (H e He) as (b & B & _). eauto.
Qed.

Lemma occurrences_iff F evs p c l out : get_occurrences F evs p (Some (restrict_attendees c l)) = Ok out ->
  (exists q, assert_bounded p = Ok q)
  /\ (forall e, In e evs -> exists b, asked c l e = Ok b /\ (b = true -> exists y, expand F e p = Ok y))
  /\ (forall o, In o out <-> exists e y, In e evs /\ asked c l e = Ok true /\ expand F e p = Ok y /\ In o y).
Proof.
  unfold get_occurrences, matching_events. change (match_criteria (restrict_attendees c l)) with (asked c l).
  destruct (assert_bounded p) as [q| |]; try discriminate. cbn [rbind].
  destruct (rfilter (asked c l) evs) as [m| |] eqn:M; try discriminate. cbn [rbind]. intros E.
  pose proof (rfilter_in _ _ _ M) as MI. split; [eauto|]. split.
  - intros e He. destruct (rfilter_all _ _ _ M e He) as [b B]. exists b. split; [exact B|]. intros ->. apply (rconcat_all _ _ _ E). apply MI. auto.
  - intros o. rewrite (rconcat_in _ _ _ E). split.
    + intros (e & y & H1 & H2 & H3). apply MI in H1 as [H0 H1]. exists e, y. auto.
    + intros (e & y & H0 & H1 & H2 & H3). exists e, y. split; [now apply MI|auto].
Qed.

Lemma occurrences_ok F evs p c l q : assert_bounded p = Ok q ->
  (forall e, In e evs -> exists b, asked c l e = Ok b /\ (b = true -> exists y, expand F e p = Ok y)) ->
  exists out, get_occurrences F evs p (Some (restrict_attendees c l)) = Ok out.
Proof.
  intros Q H. unfold get_occurrences, matching_events. change (match_criteria (restrict_attendees c l)) with (asked c l).
  rewrite Q. cbn [rbind].
  assert (M : rfilter (asked c l) evs = Ok (filter (fun x => match asked c l x with Ok b => b | _ => false end) evs)).
  { apply rfilter_iff. split; [|reflexivity]. intros e He. destruct (H e He) as (b & B & _). eauto. }
  rewrite M. cbn [rbind]. apply rconcat_ok. intros e He. apply filter_In in He as [He X]. destruct (H e He) as (b & B & Y).
  rewrite B in X. now apply Y.
Qed.

(** * C162 *)
(** the events of a group's calendar are, in the order of the storage, those of the calendars of its members *)
Theorem C162_events : forall evs (atts : list attendee) p c, atts <> [] -> ~ In None atts ->
  (forall out, calendar_events evs atts p c = Ok out -> exists f : attendee -> event -> bool,
     (forall a, In a atts -> attendee_events evs a p c = Ok (filter (f a) evs))
     /\ out = filter (fun e => existsb (fun a => f a e) atts) evs)
  /\ (forall f, (forall a, In a atts -> attendee_events evs a p c = Ok (filter (f a) evs)) ->
     calendar_events evs atts p c = Ok (filter (fun e => existsb (fun a => f a e) atts) evs)).
Proof.
  intros evs atts p c NE NN. unfold calendar_events, attendee_events. split.
  - intros out E. apply events_iff in E as [H ->]. exists (fun a e => passed (asked c [a] e) && passed (when p e)).
    assert (G : forall e, In e evs -> exists g, (forall a, In a atts -> asked c [a] e = Ok (g a)) /\ asked c atts e = Ok (existsb g atts)).
    { intros e He. destruct (group_match c atts e NE NN) as [G|(r & R & A & _)]; [exact G|]. destruct (H e He) as (b & B & _). exfalso. apply (R b). congruence. }
    split.
    + intros a A. apply events_iff. split; [|reflexivity]. intros e He. destruct (G e He) as (g & G1 & G2). exists (g a). split; [now apply G1|].
      intros X. destruct (H e He) as (b & B1 & B2). apply B2. assert (b = existsb g atts) by congruence. subst b. apply existsb_exists. eauto.
    + apply filter_ext_in. intros e He. destruct (G e He) as (g & G1 & G2). rewrite G2. cbn [passed].
      clear H G G2 NE NN. induction atts as [|a atts IH]; [reflexivity|].
      cbn [existsb]. rewrite (G1 a (or_introl eq_refl)). cbn [passed]. rewrite andb_orb_distrib_l, IH by (intros x X; apply G1; now right). reflexivity.
  - intros f H. apply events_iff.
    assert (G : forall e, In e evs -> exists g, (forall a, In a atts -> asked c [a] e = Ok (g a)) /\ asked c atts e = Ok (existsb g atts)).
    { intros e He. destruct (group_match c atts e NE NN) as [G|(r & R & _ & A)]; [exact G|]. destruct atts as [|a r0]; [now exfalso|].
      destruct (proj1 (proj1 (events_iff _ _ _ _ _) (H a (or_introl eq_refl))) e He) as (b & B & _). exfalso. apply (R b). rewrite <- B. symmetry. apply A. now left. }
    split.
    + intros e He. destruct (G e He) as (g & G1 & G2). exists (existsb g atts). split; [exact G2|]. intros X. apply existsb_exists in X as (a & A & X).
      destruct (proj1 (proj1 (events_iff _ _ _ _ _) (H a A)) e He) as (b & B1 & B2). apply B2. rewrite (G1 a A) in B1. congruence.
    + apply filter_ext_in. intros e He. destruct (G e He) as (g & G1 & G2). rewrite G2. cbn [passed].
      assert (FA : forall a, In a atts -> f a e = g a && passed (when p e)).
      { intros a A. pose proof (proj2 (proj1 (events_iff _ _ _ _ _) (H a A))) as X.
        assert (Y : In e (filter (f a) evs) <-> In e (filter (fun x => passed (asked c [a] x) && passed (when p x)) evs)) by now rewrite X.
        rewrite !filter_In, (G1 a A) in Y. cbn [passed] in Y. destruct (f a e), (g a && passed (when p e)); try reflexivity; intuition discriminate. }
      clear H G G1 G2 NE NN. induction atts as [|a atts IH]; [reflexivity|]. cbn [existsb]. rewrite (FA a (or_introl eq_refl)).
      rewrite IH by (intros x X; apply FA; now right). now rewrite andb_orb_distrib_l.
Qed.
Print Assumptions C162_events.

(** and so are the occurrences *)
Theorem C162_occurrences : forall F evs (atts : list attendee) p c, atts <> [] -> ~ In None atts ->
  ((exists out, calendar_occurrences F evs atts p c = Ok out)
     <-> forall a, In a atts -> exists y, attendee_occurrences F evs a p c = Ok y)
  /\ (forall out, calendar_occurrences F evs atts p c = Ok out ->
      forall o, In o out <-> exists a y, In a atts /\ attendee_occurrences F evs a p c = Ok y /\ In o y).
Proof.
  intros F evs atts p c NE NN. unfold calendar_occurrences, attendee_occurrences.
  assert (DOWN : forall out, get_occurrences F evs p (Some (restrict_attendees c atts)) = Ok out ->
    forall a, In a atts -> exists y, get_occurrences F evs p (Some (restrict_attendees c [a])) = Ok y).
  { intros out E a A. apply occurrences_iff in E as ((q & Q) & H & _). apply (occurrences_ok _ _ _ _ _ q Q). intros e He.
    destruct (H e He) as (b & B1 & B2). destruct (group_match c atts e NE NN) as [(g & G1 & G2)|(r & R & A' & _)].
    - exists (g a). split; [now apply G1|]. intros X. apply B2. assert (b = existsb g atts) by congruence. subst b. apply existsb_exists. eauto.
    - exfalso. apply (R b). congruence. }
  split; [split|].
  - intros [out E]. exact (DOWN out E).
  - intros H. destruct atts as [|a0 r0] eqn:AT; [now exfalso|]. rewrite <- AT in *.
    assert (A0 : In a0 atts) by (rewrite AT; now left). destruct (H a0 A0) as [y0 Y0]. apply occurrences_iff in Y0 as ((q & Q) & H0 & _).
    apply (occurrences_ok _ _ _ _ _ q Q). intros e He. destruct (group_match c atts e NE NN) as [(g & G1 & G2)|(r & R & _ & A')].
    + exists (existsb g atts). split; [exact G2|]. intros X. apply existsb_exists in X as (a & A & X). destruct (H a A) as [y Y].
      apply occurrences_iff in Y as (_ & Y & _). destruct (Y e He) as (b & B1 & B2). apply B2. rewrite (G1 a A) in B1. congruence.
    + destruct (H0 e He) as (b & B & _). exfalso. apply (R b). rewrite <- B. symmetry. now apply A'.
  - intros out E o. pose proof (DOWN out E) as D. apply occurrences_iff in E as (_ & H & I). rewrite I. split.
    + intros (e & y & He & X & Y & Ho). destruct (group_match c atts e NE NN) as [(g & G1 & G2)|(r & R & A' & _)]; [|exfalso; apply (R true); congruence].
      assert (EX : existsb g atts = true) by congruence. apply existsb_exists in EX as (a & A & GA). destruct (D a A) as [ya YA].
      exists a, ya. split; [exact A|]. split; [exact YA|]. apply occurrences_iff in YA as (_ & _ & IA). apply IA. exists e, y. rewrite (G1 a A), GA. auto.
    + intros (a & ya & A & YA & Ho). apply occurrences_iff in YA as (_ & _ & IA). apply IA in Ho as (e & y & He & X & Y & Ho).
      exists e, y. split; [exact He|]. split; [|auto]. destruct (group_match c atts e NE NN) as [(g & G1 & G2)|(r & R & _ & A')]; [|exfalso; apply (R true); rewrite <- X; symmetry; now apply A'].
      rewrite G2. f_equal. apply existsb_exists. exists a. split; [exact A|]. rewrite (G1 a A) in X. congruence.
Qed.
Print Assumptions C162_occurrences.

(** The blocked periods of a group are those of its members, merged. *)
Theorem C162_blocked : forall F evs (atts : list attendee) begins ends tb te l, atts <> [] ->
  evs_ok evs -> dt_ok begins = true -> dt_ok ends = true -> 0 <= tb < DAY /\ 0 <= te < DAY ->
  (get_blocked F evs atts begins ends tb te = Ok l <->
   exists bs, Forall2 (fun a b => get_blocked F evs [a] begins ends tb te = Ok b) atts bs /\ l = remove_overlaps (List.concat bs)).
Proof.
  intros F evs atts b e tb te l NE OK OB OE W. revert l NE.
  assert (NEAT : forall atts bs, Forall2 (fun a x => get_blocked F evs [a] b e tb te = Ok x) atts bs -> Forall wf (List.concat bs)).
  { intros ats bs H. induction H as [|a x ats bs H1 H2 IH]; [constructor|]. cbn [List.concat]. apply Forall_app. split; [|exact IH].
    exact (proj2 (get_blocked_form _ _ _ _ _ _ _ _ OK OB OE W H1)). }
  induction atts as [|a atts IH]; intros l NE; [now exfalso|].
  destruct atts as [|a' atts].
  - split.
    + intros E. exists [l]. split; [now constructor|]. cbn [List.concat]. rewrite app_nil_r. symmetry.
      destruct (get_blocked_form _ _ _ _ _ _ _ _ OK OB OE W E). now apply remove_overlaps_id.
    + intros (bs & H & ->). inversion H as [|? x ? ? H1 H2]; subst. inversion H2; subst. cbn [List.concat]. rewrite app_nil_r.
      destruct (get_blocked_form _ _ _ _ _ _ _ _ OK OB OE W H1). now rewrite remove_overlaps_id.
  - assert (NE' : a' :: atts <> []) by discriminate.
    destruct (blocked_app F evs [a] (a' :: atts) b e tb te OK OB OE W) as [A1 A2]. cbn [app] in A1, A2.
    assert (MERGE : forall x bs, Forall wf x -> Forall wf (List.concat bs) -> remove_overlaps (x ++ remove_overlaps (List.concat bs)) = remove_overlaps (x ++ List.concat bs)).
    { intros x bs W1 W2. assert (N2 : neat (List.concat bs)) by now apply neat_wf.
      apply merged_unique; [apply neat_app; apply neat_wf; [exact W1|now apply remove_overlaps_wf]|apply neat_app; [now apply neat_wf|exact N2]|].
      intros u. now rewrite !reaches_app, merged_reaches. }
    split.
    + intros E. destruct (A1 l E) as (b1 & b2 & E1 & E2 & ->). apply (IH b2 NE') in E2 as (bs & H & ->). exists (b1 :: bs). split; [now constructor|].
      cbn [List.concat]. apply MERGE; [exact (proj2 (get_blocked_form _ _ _ _ _ _ _ _ OK OB OE W E1))|exact (NEAT _ _ H)].
    + intros (bs & H & ->). inversion H as [|? x ? bs' H1 H2]; subst. cbn [List.concat].
      rewrite <- MERGE; [|exact (proj2 (get_blocked_form _ _ _ _ _ _ _ _ OK OB OE W H1))|exact (NEAT _ _ H2)].
      apply A2; [exact H1|]. apply (IH _ NE'). eauto.
Qed.
Print Assumptions C162_blocked.

(** The group is free when all of its members are. *)
Theorem C162_free : forall F evs (atts : list attendee) begins ends tb te l, atts <> [] ->
  evs_ok evs -> dt_ok begins = true -> dt_ok ends = true -> begins < ends -> 0 <= tb < DAY /\ 0 <= te < DAY ->
  get_free F evs atts begins ends tb te None = Ok l ->
  exists fs, Forall2 (fun a f => get_free F evs [a] begins ends tb te None = Ok f) atts fs
  /\ forall t, begins <= t < ends -> (covers l t <-> forall f, In f fs -> covers f t).
Proof.
  intros F evs atts b e tb te l NE OK OB OE BE W E.
  assert (X : exists bs, Forall2 (fun a x => get_blocked F evs [a] b e tb te = Ok x) atts bs).
  { unfold get_free in E. destruct (get_blocked F evs atts b e tb te) as [x| |] eqn:B; try discriminate.
    apply (C162_blocked _ _ _ _ _ _ _ _ NE OK OB OE W) in B as (bs & H & _). eauto. }
  destruct X as [bs X].
  assert (Y : exists fs, Forall2 (fun a f => get_free F evs [a] b e tb te None = Ok f) atts fs).
  { clear E NE. induction X as [|a x atts bs H1 H2 [fs IH]]; [exists []; constructor|].
    eexists (_ :: fs). constructor; [unfold get_free; rewrite H1; reflexivity|exact IH]. }
  destruct Y as [fs Y]. exists fs. split; [exact Y|]. intros t T.
  rewrite (get_free_covers _ _ _ _ _ _ _ _ OK OB OE BE W E t T).
  assert (Z : (forall f, In f fs -> covers f t) <-> forall a, In a atts -> ~ outside tb te t /\ ~ busy evs [a] t).
  { clear E NE X. induction Y as [|a f atts fs H1 H2 IH]; [split; intros _ ? []|].
    pose proof (get_free_covers _ _ _ _ _ _ _ _ OK OB OE BE W H1 t T) as C. split.
    - intros H x [<-|A]; [apply C, H; now left|]. apply IH; [|exact A]. intros g G. apply H. now right.
    - intros H g [<-|G]; [apply C, H; now left|]. apply (proj2 IH); [|exact G]. intros x A. apply H. now right. }
  rewrite Z. split.
  - intros [H1 H2] a A. split; [exact H1|]. intros (i & v & I & R). apply H2. exists i, v. split; [|exact R]. destruct I as [<-|[]]. exact A.
  - intros H. destruct atts as [|a0 r]; [now exfalso|]. split; [apply (H a0); now left|]. intros (i & v & I & R).
    destruct (H _ I) as [_ N]. apply N. exists i, v. split; [now left|exact R].
Qed.
Print Assumptions C162_free.

Example C162_case : ([alice; bob] <> [] /\ ~ In None [alice; bob]) /\ evs_ok store
  /\ attendee_events store alice (None, None) None = Ok [ev1; ev3] /\ attendee_events store bob (None, None) None = Ok [ev1; ev2]
  /\ calendar_events store [alice; bob] (None, None) None = Ok [ev1; ev2; ev3]
  /\ get_blocked 50 store [alice] (at_ 0 0) (at_ 1 0) (9 * HOUR) (17 * HOUR)
     = Ok [(at_ 0 0, at_ 0 9); (at_ 0 10, at_ 0 12); (at_ 0 17, at_ 1 0)]
  /\ get_blocked 50 store [bob] (at_ 0 0) (at_ 1 0) (9 * HOUR) (17 * HOUR) = Ok [(at_ 0 0, at_ 0 9); (at_ 0 16, at_ 1 0)]
  /\ get_blocked 50 store [alice; bob] (at_ 0 0) (at_ 1 0) (9 * HOUR) (17 * HOUR)
     = Ok [(at_ 0 0, at_ 0 9); (at_ 0 10, at_ 0 12); (at_ 0 16, at_ 1 0)]
  /\ get_free 50 store [alice; bob] (at_ 0 0) (at_ 1 0) (9 * HOUR) (17 * HOUR) None = Ok [(at_ 0 9, at_ 0 10); (at_ 0 12, at_ 0 16)].
Proof. split; [split; [discriminate|intros [X|[X|[]]]; discriminate]|]. split; [exact store_ok|]. vm_compute. auto 10. Qed.
