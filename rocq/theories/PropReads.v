(** Property theorems C170: queries while the calendar changes. *)
From Verif Require Import Base PyDate DateFacts Recurrent CalTime TimeProofs Event EventProofs Storage QueryProofs ICal System SystemProofs PropSystem PropEvent PropThreads Reads.


(** ** Specification *)
(** in one of the states seen during the call *)
Definition once (ss : list system) (P : system -> Prop) : Prop := exists s, In s ss /\ P s.
(** the event is in one of the wanted categories *)
Definition good_cat (c : criteria) (e : event) : Prop :=
  forall cats, c_categories c = Some cats -> exists x, In x cats /\ In x (e_categories e).
(** the event has the wanted organizer *)
Definition good_org (c : criteria) (e : event) : Prop :=
  forall o, c_organizer c = Some o -> exists i, o = Some i /\ e_organizer e = Some i.
(** the person takes part, with the wanted status, in the wanted role *)
Definition takes_part (e : event) (i : string) : Prop := dget (e_state e) i <> None.
Definition good_status (c : criteria) (e : event) (i : string) : Prop := forall v, c_status c = Some v -> dget (e_state e) i = Some v.
Definition good_role (c : criteria) (e : event) (i : string) : Prop := forall v, c_role c = Some v -> dget (e_role e) i = Some v.
(** the event touches the period *)
Definition touches (p : period) (e : event) : Prop :=
  (forall b, fst p = Some b -> exists d, e_duration e = Some d /\ b < e_dtstart e + d)
  /\ (forall x, snd p = Some x -> e_dtstart e < x).
(** the event meets the criteria *)
Definition meets (c : criteria) (e : event) : Prop :=
  good_cat c e /\ good_org c e
  /\ forall l, c_attendees c = Some l -> exists i, In (Some i) l /\ takes_part e i /\ good_status c e i /\ good_role c e i.
(** each condition of the criteria held at some time, the last three for the same person *)
Definition met (ss : list system) (c : criteria) (r : nat) : Prop :=
  once ss (fun s => good_cat c (obj s r)) /\ once ss (fun s => good_org c (obj s r))
  /\ forall l, c_attendees c = Some l -> exists i, In (Some i) l /\ once ss (fun s => takes_part (obj s r) i)
       /\ once ss (fun s => good_status c (obj s r) i) /\ once ss (fun s => good_role c (obj s r) i).
(** the events stored, in the order of the dictionary *)
Definition refs_of (s : system) : list nat := map snd (sys_store s).
(** some of a list, in the same order *)
Inductive some_of {A} : list A -> list A -> Prop :=
| some_nil : some_of [] []
| some_skip x l m : some_of l m -> some_of l (x :: m)
| some_take x l m : some_of l m -> some_of (x :: l) (x :: m).
(** how many actions the call has at most, after the first *)
Definition limit (q : query) (s : system) : nat :=
  2 + List.length (sys_store s) * (4 + 3 * match c_attendees (q_crit q) with Some l => List.length l | None => 0 end).

(** [x] is what the call would return in state [s] if it were alone *)
Definition as_of (q : query) (s : system) (x : res answer) : Prop :=
  match q_kind q with
  | REvents =>
      match get_events (stored s) (q_period q) (Some (q_crit q)) with
      | Ok l => exists refs, x = Ok (Found refs) /\ map (obj s) refs = l
      | Raise y => x = Raise y
      | OutOfFuel => x = OutOfFuel
      end
  | ROccurrences f =>
      match get_occurrences f (stored s) (q_period q) (Some (q_crit q)) with
      | Ok l => exists out, x = Ok (Expanded out) /\ map snd out = l
      | Raise y => x = Raise y
      | OutOfFuel => x = OutOfFuel
      end
  end.

(** ** Every call ends *)
Definition width (q : query) : nat := match c_attendees (q_crit q) with Some l => List.length l | None => 0 end.
Definition rleft (q : query) (t : reader) : nat :=
  let M (todo acc : list nat) := (List.length todo * (4 + 3 * width q) + List.length acc + 2)%nat in
  match t with
  | RBegin => 0
  | RLook todo acc => M todo acc
  | ROrg _ todo acc => 3 * width q + 3 + M todo acc
  | RHas _ l todo acc => 3 * List.length l + 2 + M todo acc
  | RStat _ _ l todo acc => 3 * List.length l + 4 + M todo acc
  | RRole _ _ l todo acc => 3 * List.length l + 3 + M todo acc
  | RIn todo _ => List.length todo + 1
  | RExp todo _ => List.length todo + 1
  | RDone _ => 0
  end.
Lemma rgo_left {A} q (x : res A) f n : (forall v, (rleft q (f v) <= n)%nat) -> (rleft q (rgo x f) <= n)%nat.
Proof. intros H. destruct x; cbn [rgo]; [apply H|cbn [rleft]; lia..]. Qed.
Lemma rleft_step q s t : t <> RBegin -> rstep q s t <> RBegin /\ (rleft q (rstep q s t) <= pred (rleft q t))%nat.
Proof.
  assert (G : forall A (x : res A) f, (forall v, f v <> RBegin) -> rgo x f <> RBegin) by (intros A x f H; destruct x; cbn; [apply H|discriminate..]).
  assert (AL : forall l x, List.length (l ++ [x : nat]) = S (List.length l)) by (intros; rewrite app_length; cbn; lia).
  intros B. destruct t as [|[|r todo] acc|r todo acc|r [|a l] todo acc|r a l todo acc|r a l todo acc|[|r todo] out|[|r todo] out|x]; cbn [rstep]; try contradiction.
  - destruct (q_kind q); (split; [discriminate|]); cbn [rleft List.length]; lia.
  - destruct (match c_categories _ with Some _ => _ | None => _ end); (split; [discriminate|]); cbn [rleft List.length]; lia.
  - split; [apply G; intros []; [discriminate|]; destruct (c_attendees _); discriminate|]. apply rgo_left. intros []; cbn [rleft]; [lia|].
    unfold width. destruct (c_attendees (q_crit q)) eqn:E; cbn [rleft]; unfold width; rewrite ?E, ?AL; lia.
  - split; [discriminate|]. cbn [rleft List.length]. lia.
  - split; [apply G; intros []; discriminate|]. apply rgo_left. intros []; cbn [rleft List.length]; lia.
  - split; [apply G; intros v; destruct (match c_status _ with Some _ => _ | None => _ end); discriminate|]. apply rgo_left. intros v; destruct (match c_status _ with Some _ => _ | None => _ end); cbn [rleft List.length]; lia.
  - split; [apply G; intros v; destruct (match c_role _ with Some _ => _ | None => _ end); discriminate|]. apply rgo_left. intros v; destruct (match c_role _ with Some _ => _ | None => _ end); cbn [rleft List.length]; rewrite ?AL; lia.
  - split; [discriminate|]. cbn [rleft List.length]. lia.
  - split; [apply G; discriminate|]. apply rgo_left. intros v. cbn [rleft List.length]. lia.
  - split; [discriminate|]. cbn [rleft List.length]. lia.
  - split; [apply G; discriminate|]. apply rgo_left. intros v. cbn [rleft List.length]. lia.
  - split; [discriminate|]. cbn. lia.
Qed.
Lemma rleft_zero q t : t <> RBegin -> rleft q t = 0%nat -> exists x, t = RDone x.
Proof. destruct t; cbn [rleft]; intros B H; try lia; [contradiction|eauto]. Qed.
Lemma rleft_turns q ss : forall t, t <> RBegin ->
  fold_left (fun t s => rstep q s t) ss t <> RBegin /\ (rleft q (fold_left (fun t s => rstep q s t) ss t) <= rleft q t - List.length ss)%nat.
Proof.
  induction ss as [|s ss IH]; intros t B; cbn [fold_left List.length]; [split; [exact B|lia]|].
  destruct (rleft_step q s t B) as [B' L]. destruct (IH _ B') as [B'' L']. split; [exact B''|lia].
Qed.
Lemma rstep_begin q s : rstep q s RBegin <> RBegin /\ (rleft q (rstep q s RBegin) <= limit q s)%nat.
Proof.
  cbn [rstep]. split.
  - destruct (match q_kind q with REvents => _ | ROccurrences _ => _ end); discriminate.
  - apply rgo_left. intros _. cbn [rleft List.length]. unfold limit. rewrite map_length. fold (width q). lia.
Qed.

Theorem C170_ends : forall q s ss, (limit q s <= List.length ss)%nat -> exists x, rturns q (s :: ss) = RDone x.
Proof.
  intros q s ss L. unfold rturns. cbn [fold_left]. destruct (rstep_begin q s) as [B M]. destruct (rleft_turns q ss _ B) as [B' M'].
  apply (rleft_zero q); [exact B'|lia].
Qed.
Print Assumptions C170_ends.
Lemma done_stays q ss x : fold_left (fun t s => rstep q s t) ss (RDone x) = RDone x.
Proof. induction ss as [|s ss IH]; [reflexivity|exact IH]. Qed.

(** ** When nobody changes the events found *)
Definition fin (q : query) (acc : list nat) : reader := match q_kind q with REvents => RIn acc [] | ROccurrences _ => RExp acc [] end.
Definition reaches (q : query) (s : system) (t t' : reader) : Prop := exists n, fold_left (fun t s => rstep q s t) (repeat s n) t = t'.
Lemma reaches_refl q s t : reaches q s t t.
Proof. now exists 0%nat. Qed.
Lemma reaches_step q s t t' : reaches q s (rstep q s t) t' -> reaches q s t t'.
Proof. intros [n H]. exists (S n). exact H. Qed.
Lemma reaches_trans q s a b c : reaches q s a b -> reaches q s b c -> reaches q s a c.
Proof. intros [n <-] [m <-]. exists (n + m)%nat. now rewrite repeat_app, fold_left_app. Qed.
Lemma reaches_go {A} q s (x : res A) f g : (forall v, x = Ok v -> reaches q s (f v) (g v)) -> reaches q s (rgo x f) (rgo x g).
Proof. intros H. destruct x as [v| |]; cbn [rgo]; [now apply H|apply reaches_refl..]. Qed.
Lemma rgo_bind {A B} (x : res A) (k : A -> res B) f : rgo (rbind x k) f = rgo x (fun v => rgo (k v) f).
Proof. now destruct x. Qed.

Lemma run_attendees q s r todo acc l :
  reaches q s (RHas r l todo acc) (rgo (match_attendees (q_crit q) (obj s r) l) (fun b : bool => RLook todo (if b then acc ++ [r] else acc))).
Proof.
  induction l as [|a l IH]; apply reaches_step; cbn [rstep match_attendees]; [apply reaches_refl|].
  rewrite rgo_bind. apply reaches_go. intros [|] _; cbn [negb]; [|exact IH].
  apply reaches_step. cbn [rstep]. rewrite rgo_bind. apply reaches_go. intros st _.
  destruct (match c_status _ with Some _ => _ | None => _ end); [exact IH|].
  apply reaches_step. cbn [rstep]. rewrite rgo_bind. apply reaches_go. intros ro _.
  destruct (match c_role _ with Some _ => _ | None => _ end); [exact IH|apply reaches_refl].
Qed.
Lemma run_match q s r todo acc :
  reaches q s (RLook (r :: todo) acc) (rgo (match_criteria (q_crit q) (obj s r)) (fun b : bool => RLook todo (if b then acc ++ [r] else acc))).
Proof.
  apply reaches_step. cbn [rstep]. unfold match_criteria. destruct (match c_categories _ with Some _ => _ | None => _ end); [apply reaches_refl|].
  apply reaches_step. cbn [rstep]. rewrite rgo_bind. apply reaches_go. intros [|] _; [apply reaches_refl|].
  destruct (c_attendees (q_crit q)) as [l|]; [apply run_attendees|apply reaches_refl].
Qed.
Lemma run_matches q s todo : forall acc,
  reaches q s (RLook todo acc) (rgo (rfilter (fun r => match_criteria (q_crit q) (obj s r)) todo) (fun l => fin q (acc ++ l))).
Proof.
  induction todo as [|r todo IH]; intros acc.
  - apply reaches_step. cbn [rstep rfilter rgo]. rewrite app_nil_r. apply reaches_refl.
  - eapply reaches_trans; [apply run_match|]. cbn [rfilter]. rewrite rgo_bind. apply reaches_go. intros b _. rewrite rgo_bind.
    eapply reaches_trans; [apply IH|]. destruct (rfilter _ todo) as [l| |]; cbn [rgo]; try apply reaches_refl.
    destruct b; [rewrite <- app_assoc|]; apply reaches_refl.
Qed.
Lemma run_period q s todo : forall out,
  reaches q s (RIn todo out) (rgo (rfilter (fun r => in_period (e_dtstart (obj s r)) (e_duration (obj s r)) (q_period q)) todo) (fun l => RDone (Ok (Found (out ++ l))))).
Proof.
  induction todo as [|r todo IH]; intros out; apply reaches_step; cbn [rstep rfilter].
  - cbn [rgo]. rewrite app_nil_r. apply reaches_refl.
  - rewrite rgo_bind. apply reaches_go. intros b _. rewrite rgo_bind. eapply reaches_trans; [apply IH|].
    destruct (rfilter _ todo) as [l| |]; cbn [rgo]; try apply reaches_refl. destruct b; [rewrite <- app_assoc|]; apply reaches_refl.
Qed.
Definition qfuel (q : query) : nat := match q_kind q with ROccurrences f => f | REvents => 0 end.
Lemma run_expand q s todo : forall out,
  reaches q s (RExp todo out) (rgo (rconcat_map (fun r => let* l := expand (qfuel q) (obj s r) (q_period q) in Ok (map (pair r) l)) todo) (fun l => RDone (Ok (Expanded (out ++ l))))).
Proof.
  induction todo as [|r todo IH]; intros out; apply reaches_step; cbn [rstep rconcat_map].
  - cbn [rgo]. rewrite app_nil_r. apply reaches_refl.
  - rewrite rgo_bind, rgo_bind. apply reaches_go. intros l _. cbn [rgo]. rewrite rgo_bind. eapply reaches_trans; [apply IH|].
    destruct (rconcat_map _ todo) as [m| |]; cbn [rgo]; try apply reaches_refl. rewrite <- app_assoc. apply reaches_refl.
Qed.

(** the events a call still works on *)
Definition refs_in (L : list nat) (t : reader) : Prop :=
  match t with
  | RBegin | RDone _ => True
  | RLook todo acc => incl todo L /\ incl acc L
  | ROrg r todo acc | RHas r _ todo acc | RStat r _ _ todo acc | RRole r _ _ todo acc => In r L /\ incl todo L /\ incl acc L
  | RIn todo _ => incl todo L
  | RExp todo _ => incl todo L
  end.
Lemma refs_go {A} L (x : res A) f : (forall v, refs_in L (f v)) -> refs_in L (rgo x f).
Proof. intros H. destruct x; cbn; [apply H|exact I..]. Qed.
Lemma refs_step q s L t : t <> RBegin -> refs_in L t -> refs_in L (rstep q s t).
Proof.
  assert (SN : forall acc r, incl acc L -> In r L -> incl (acc ++ [r]) L) by (intros acc r A R x X; apply in_app_iff in X; destruct X as [X|[<-|[]]]; auto).
  intros B R. destruct t as [|[|r todo] acc|r todo acc|r [|a l] todo acc|r a l todo acc|r a l todo acc|[|r todo] out|[|r todo] out|x]; cbn [rstep refs_in] in *; try contradiction.
  - destruct (q_kind q); apply R.
  - destruct R as [R1 R2]. apply incl_cons_inv in R1. destruct (match c_categories _ with Some _ => _ | None => _ end); cbn; intuition.
  - apply refs_go. intros []; cbn; [tauto|]. destruct (c_attendees _); cbn; intuition.
  - tauto.
  - apply refs_go. intros []; cbn; tauto.
  - apply refs_go. intros v. destruct (match c_status _ with Some _ => _ | None => _ end); cbn; tauto.
  - apply refs_go. intros v. destruct (match c_role _ with Some _ => _ | None => _ end); cbn; intuition.
  - exact I.
  - apply incl_cons_inv in R. apply refs_go. intros v. cbn. tauto.
  - exact I.
  - apply incl_cons_inv in R. apply refs_go. intros v. cbn. tauto.
  - exact I.
Qed.
Lemma same_step q s s0 L t : (forall r, In r L -> obj s r = obj s0 r) -> t <> RBegin -> refs_in L t -> rstep q s t = rstep q s0 t.
Proof.
  intros O B R. destruct t as [|[|r todo] acc|r todo acc|r [|a l] todo acc|r a l todo acc|r a l todo acc|[|r todo] out|[|r todo] out|x]; cbn [rstep refs_in] in *; try contradiction; try reflexivity;
  (rewrite O; [reflexivity|]); first [apply R; left; reflexivity|destruct R as [R _]; first [exact R|apply R; left; reflexivity]].
Qed.
Lemma quiet_turns q s0 L ss : forall t, (forall s r, In s ss -> In r L -> obj s r = obj s0 r) -> t <> RBegin -> refs_in L t ->
  fold_left (fun t s => rstep q s t) ss t = fold_left (fun t s => rstep q s t) (repeat s0 (List.length ss)) t.
Proof.
  induction ss as [|s ss IH]; intros t O B R; [reflexivity|]. cbn [fold_left List.length repeat].
  rewrite (same_step q s s0 L t); [|intros r; apply O; now left|exact B|exact R].
  apply IH; [intros s' r S; apply O; now right|now apply rleft_step|now apply refs_step].
Qed.
Lemma same_end q s t n x y : fold_left (fun t s => rstep q s t) (repeat s n) t = RDone x -> reaches q s t (RDone y) -> x = y.
Proof.
  intros H [m K]. destruct (Nat.le_ge_cases n m) as [L|L].
  - replace m with (n + (m - n))%nat in K by lia. rewrite repeat_app, fold_left_app, H, done_stays in K. now injection K.
  - replace n with (m + (n - m))%nat in H by lia. rewrite repeat_app, fold_left_app, K, done_stays in H. now injection H.
Qed.

Lemma rfilter_map {A B} (g : A -> B) (f : B -> res bool) l : rfilter f (map g l) = let* x := rfilter (fun r => f (g r)) l in Ok (map g x).
Proof.
  induction l as [|a l IH]; [reflexivity|]. cbn [map rfilter]. destruct (f (g a)) as [b| |]; [|reflexivity..]. cbn [rbind]. rewrite IH.
  destruct (rfilter _ l) as [x| |]; [|reflexivity..]. cbn [rbind]. now destruct b.
Qed.
Lemma rconcat_pair {A} (g : nat -> A) (f : A -> res (list (occurrence event))) l :
  rconcat_map f (map g l) = let* x := rconcat_map (fun r => let* o := f (g r) in Ok (map (pair r) o)) l in Ok (map snd x).
Proof.
  induction l as [|a l IH]; [reflexivity|]. cbn [map rconcat_map]. destruct (f (g a)) as [o| |]; [|reflexivity..]. cbn [rbind]. rewrite IH.
  destruct (rconcat_map _ l) as [x| |]; [|reflexivity..]. cbn [rbind]. f_equal. rewrite map_app, map_map. cbn [snd]. now rewrite map_id.
Qed.

(** the answer is that of the state in which the call began, if nobody changes the events then stored *)
Theorem C170_quiet : forall q s ss,
  (forall s' r, In s' ss -> In r (refs_of s) -> obj s' r = obj s r) ->
  (limit q s <= List.length ss)%nat ->
  exists x, rturns q (s :: ss) = RDone x /\ as_of q s x.
Proof.
  intros q s ss O L. destruct (C170_ends q s ss L) as [x X]. exists x. split; [exact X|]. unfold as_of.
  assert (U : forall y, reaches q s (rstep q s RBegin) (RDone y) -> x = y).
  { intros y Y. unfold rturns in X. cbn [fold_left] in X. rewrite (quiet_turns q s (refs_of s)) in X; [eapply same_end; eassumption|exact O|apply rstep_begin|].
    cbn [rstep]. apply refs_go. intros _. cbn. split; [apply incl_refl|intros z []]. }
  assert (ST : stored s = map (obj s) (refs_of s)) by (unfold stored, refs_of; now rewrite map_map).
  destruct (q_kind q) eqn:K.
  - assert (R : reaches q s (rstep q s RBegin)
       (rgo (rfilter (fun r => match_criteria (q_crit q) (obj s r)) (refs_of s))
            (fun acc => rgo (rfilter (fun r => in_period (e_dtstart (obj s r)) (e_duration (obj s r)) (q_period q)) acc) (fun l => RDone (Ok (Found l)))))).
    { cbn [rstep]. rewrite K. cbn [rgo]. eapply reaches_trans; [apply run_matches|]. apply reaches_go. intros acc _. unfold fin. rewrite K. apply run_period. }
    unfold get_events, matching_events. rewrite ST, rfilter_map.
    destruct (rfilter (fun r => match_criteria _ _) (refs_of s)) as [acc|y|] eqn:E1; cbn [rbind rgo] in *.
    + rewrite rfilter_map. destruct (rfilter _ acc) as [l|y|] eqn:E2; cbn [rbind rgo] in *; eauto.
    + apply U, R.
    + apply U, R.
  - assert (R : reaches q s (rstep q s RBegin)
       (rgo (assert_bounded (q_period q)) (fun _ => rgo (rfilter (fun r => match_criteria (q_crit q) (obj s r)) (refs_of s))
            (fun acc => rgo (rconcat_map (fun r => let* l := expand fuel (obj s r) (q_period q) in Ok (map (pair r) l)) acc) (fun l => RDone (Ok (Expanded l))))))).
    { cbn [rstep]. rewrite K, rgo_bind. apply reaches_go. intros v _. cbn [rgo]. eapply reaches_trans; [apply run_matches|]. apply reaches_go. intros acc _. unfold fin. rewrite K.
      assert (RE := run_expand q s acc []). unfold qfuel in RE. rewrite K in RE. exact RE. }
    unfold get_occurrences, matching_events. rewrite ST, rfilter_map.
    destruct (assert_bounded (q_period q)) as [v|y|]; cbn [rbind rgo] in *; [|apply U, R..].
    destruct (rfilter (fun r => match_criteria _ _) (refs_of s)) as [acc|y|] eqn:E1; cbn [rbind rgo] in *; [|apply U, R..].
    rewrite rconcat_pair. destruct (rconcat_map _ acc) as [l|y|] eqn:E2; cbn [rbind rgo] in *; eauto.
Qed.
Print Assumptions C170_quiet.

(** ** Whatever the others do: what is found *)
Lemma once_more ss s P : once ss P -> once (ss ++ [s]) P.
Proof. intros (x & X & Y). exists x. split; [apply in_or_app; now left|exact Y]. Qed.
Lemma once_last ss s (P : system -> Prop) : P s -> once (ss ++ [s]) P.
Proof. intros H. exists s. split; [apply in_or_app; right; now left|exact H]. Qed.
Lemma met_more ss s c r : met ss c r -> met (ss ++ [s]) c r.
Proof.
  intros (A & B & C). split; [now apply once_more|]. split; [now apply once_more|]. intros l L. destruct (C l L) as (i & I & D & E & F).
  exists i. repeat split; try apply once_more; assumption.
Qed.
Lemma some_of_skip {A} (l m : list A) x : some_of l m -> some_of l (m ++ [x]).
Proof. intros H. induction H; cbn; [apply some_skip, some_nil|now apply some_skip|now apply some_take]. Qed.
Lemma some_of_snoc {A} (l m : list A) x : some_of l m -> some_of (l ++ [x]) (m ++ [x]).
Proof. intros H. induction H; cbn; [apply some_take, some_nil|now apply some_skip|now apply some_take]. Qed.
Lemma some_of_trans {A} (l m n : list A) : some_of l m -> some_of m n -> some_of l n.
Proof.
  intros H K. revert l H. induction K as [|x m n K IH|x m n K IH]; intros l H; [exact H|apply some_skip; auto|].
  inversion H; subst; [apply some_skip; auto|apply some_take; auto].
Qed.
Lemma some_of_in {A} (l m : list A) x : some_of l m -> In x l -> In x m.
Proof. intros H. induction H; cbn; [auto|auto|intros [->|]; auto]. Qed.

(** the last check of [r]: its person, with the conditions seen so far *)
Definition person (c : criteria) (l : list attendee) (a : attendee) (i : string) : Prop :=
  a = Some i /\ exists l0, c_attendees c = Some (l0 ++ a :: l).
Definition came (snap todo acc : list nat) (ss : list system) (c : criteria) : Prop :=
  exists pre, snap = pre ++ todo /\ some_of acc pre /\ (forall r, In r acc -> met ss c r).
Definition sound (q : query) (snap : list nat) (ss : list system) (t : reader) : Prop :=
  let c := q_crit q in
  match t with
  | RBegin => True
  | RLook todo acc => came snap todo acc ss c
  | ROrg r todo acc => came snap (r :: todo) acc ss c /\ once ss (fun s => good_cat c (obj s r))
  | RHas r l todo acc => came snap (r :: todo) acc ss c /\ once ss (fun s => good_cat c (obj s r)) /\ once ss (fun s => good_org c (obj s r))
      /\ exists l0, c_attendees c = Some (l0 ++ l)
  | RStat r a l todo acc => came snap (r :: todo) acc ss c /\ once ss (fun s => good_cat c (obj s r)) /\ once ss (fun s => good_org c (obj s r))
      /\ exists i, person c l a i /\ once ss (fun s => takes_part (obj s r) i)
  | RRole r a l todo acc => came snap (r :: todo) acc ss c /\ once ss (fun s => good_cat c (obj s r)) /\ once ss (fun s => good_org c (obj s r))
      /\ exists i, person c l a i /\ once ss (fun s => takes_part (obj s r) i) /\ once ss (fun s => good_status c (obj s r) i)
  | RIn todo out => q_kind q = REvents /\ exists acc pre, some_of acc snap /\ (forall r, In r acc -> met ss c r) /\ acc = pre ++ todo /\ some_of out pre
      /\ (forall r, In r out -> once ss (fun s => touches (q_period q) (obj s r)))
  | RExp todo out => q_kind q = ROccurrences (qfuel q) /\ exists acc pre, some_of acc snap /\ (forall r, In r acc -> met ss c r) /\ acc = pre ++ todo
      /\ (forall r o, In (r, o) out -> In r pre /\ once ss (fun s => exists l, expand (qfuel q) (obj s r) (q_period q) = Ok l /\ In o l))
  | RDone (Ok (Found out)) => q_kind q = REvents /\ some_of out snap /\ (forall r, In r out -> met ss c r /\ once ss (fun s => touches (q_period q) (obj s r)))
  | RDone (Ok (Expanded out)) => q_kind q = ROccurrences (qfuel q)
      /\ (forall r o, In (r, o) out -> In r snap /\ met ss c r /\ once ss (fun s => exists l, expand (qfuel q) (obj s r) (q_period q) = Ok l /\ In o l))
  | RDone _ => True
  end.
Lemma came_more snap todo acc ss s c : came snap todo acc ss c -> came snap todo acc (ss ++ [s]) c.
Proof. intros (p & A & B & C). exists p. split; [exact A|]. split; [exact B|]. intros r R. apply met_more, C, R. Qed.
Lemma came_skip snap r todo acc ss c : came snap (r :: todo) acc ss c -> came snap todo acc ss c.
Proof. intros (p & A & B & C). exists (p ++ [r]). rewrite <- app_assoc. split; [exact A|]. split; [now apply some_of_skip|exact C]. Qed.
Lemma came_take snap r todo acc ss c : came snap (r :: todo) acc ss c -> met ss c r -> came snap todo (acc ++ [r]) ss c.
Proof.
  intros (p & A & B & C) M. exists (p ++ [r]). rewrite <- app_assoc. split; [exact A|]. split; [now apply some_of_snoc|].
  intros x X. apply in_app_iff in X. destruct X as [X|[<-|[]]]; auto.
Qed.
Lemma sound_go {A} q snap ss (x : res A) f : (forall v, x = Ok v -> sound q snap ss (f v)) -> sound q snap ss (rgo x f).
Proof. intros H. destruct x; cbn; [now apply H|exact I..]. Qed.
Lemma touches_in s r p b : in_period (e_dtstart (obj s r)) (e_duration (obj s r)) p = Ok b -> (b = true <-> touches p (obj s r)).
Proof.
  unfold touches, in_period. destruct p as [[x|] [y|]]; cbn [fst snd]; unfold end_of, dt_add.
  - destruct (e_duration (obj s r)) as [d|]; cbn; [|discriminate]. destruct (dt_ok _); cbn; [|discriminate].
    destruct (Z.leb_spec (e_dtstart (obj s r) + d) x); intros [= <-].
    + split; [discriminate|]. intros [T _]. destruct (T x eq_refl) as (d' & [= <-] & ?). lia.
    + destruct (Z.leb_spec y (e_dtstart (obj s r))); cbn; split; auto; try discriminate.
      * intros [_ T]. specialize (T y eq_refl). lia.
      * intros _. split; [intros b [= <-]; exists d; split; [reflexivity|lia]|intros z [= <-]; lia].
  - destruct (e_duration (obj s r)) as [d|]; cbn; [|discriminate]. destruct (dt_ok _); cbn; [|discriminate].
    destruct (Z.leb_spec (e_dtstart (obj s r) + d) x); intros [= <-].
    + split; [discriminate|]. intros [T _]. destruct (T x eq_refl) as (d' & [= <-] & ?). lia.
    + split; auto. intros _. split; [intros b [= <-]; exists d; split; [reflexivity|lia]|discriminate].
  - intros [= <-]. destruct (Z.leb_spec y (e_dtstart (obj s r))); cbn; split; auto; try discriminate.
    + intros [_ T]. specialize (T y eq_refl). lia.
    + intros _. split; [discriminate|intros z [= <-]; lia].
  - intros [= <-]. split; auto. intros _. split; discriminate.
Qed.
Lemma sound_step q snap ss s t : t <> RBegin -> sound q snap ss t -> sound q snap (ss ++ [s]) (rstep q s t).
Proof.
  intros B S. destruct t as [|[|r todo] acc|r todo acc|r [|a l] todo acc|r a l todo acc|r a l todo acc|[|r todo] out|[|r todo] out|x]; cbn [rstep sound] in *; try contradiction.
  - destruct S as (p & -> & S2 & S3). rewrite app_nil_r. destruct (q_kind q) eqn:K; cbn [sound]; unfold qfuel; rewrite ?K; (split; [reflexivity|]); exists acc, [].
    + split; [exact S2|]. split; [intros r R; apply met_more, S3, R|]. split; [reflexivity|]. split; [constructor|intros r []].
    + split; [exact S2|]. split; [intros r R; apply met_more, S3, R|]. split; [reflexivity|intros r o []].
  - destruct (c_categories (q_crit q)) as [cats|] eqn:C.
    + destruct (existsb (in_category (obj s r)) cats) eqn:E; cbn [negb sound]; [|apply came_skip with r, came_more, S].
      split; [apply came_more, S|]. apply once_last. intros cats' Q. rewrite C in Q. injection Q as <-. apply existsb_exists in E. destruct E as (x & X & Y). exists x. split; [exact X|]. now apply str_in_iff.
    + cbn [sound]. split; [apply came_more, S|]. apply once_last. intros cats' Q. congruence.
  - destruct S as [S1 S2]. apply sound_go. intros [|] W.
    + apply came_skip with r, came_more, S1.
    + assert (G : once (ss ++ [s]) (fun s => good_org (q_crit q) (obj s r))).
      { apply once_last. intros o O. rewrite O in W. destruct o as [i|]; cbn in W; [|discriminate]. injection W as W. exists i. split; [reflexivity|].
        unfold get_organizer_id in W. apply negb_false_iff, opt_str_eqb_eq in W. exact W. }
      destruct (c_attendees (q_crit q)) as [l|] eqn:A; cbn [sound].
      * repeat split; auto; [now apply came_more|now apply once_more|exists []; exact A].
      * apply came_take; [now apply came_more|]. split; [now apply once_more|]. split; [exact G|]. intros l L. congruence.
  - apply came_skip with r, came_more, S.
  - destruct S as (S1 & S2 & S3 & l0 & S4). apply sound_go. intros [|] H; cbn [sound].
    + repeat split; try apply once_more; auto; [now apply came_more|]. destruct a as [i|]; [|discriminate H]. exists i. split; [split; eauto|]. apply once_last.
      unfold takes_part. unfold has_attendee, get_status in H. cbn in H. destruct (dget (e_state (obj s r)) i); [discriminate|discriminate H].
    + repeat split; try apply once_more; auto; [now apply came_more|]. exists (l0 ++ [a]). now rewrite <- app_assoc.
  - destruct S as (S1 & S2 & S3 & i & (-> & l0 & S4) & S5). apply sound_go. intros st H. cbn in H. injection H as <-.
    destruct (match c_status _ with Some _ => _ | None => _ end) eqn:E; cbn [sound].
    + repeat split; try apply once_more; auto; [now apply came_more|]. exists (l0 ++ [Some i]). now rewrite <- app_assoc.
    + repeat split; try apply once_more; auto; [now apply came_more|]. exists i. split; [split; eauto|]. split; [now apply once_more|]. apply once_last.
      intros v V. rewrite V in E. apply negb_false_iff, opt_str_eqb_eq in E. now symmetry.
  - destruct S as (S1 & S2 & S3 & i & (-> & l0 & S4) & S5 & S6). apply sound_go. intros st H. cbn in H. injection H as <-.
    destruct (match c_role _ with Some _ => _ | None => _ end) eqn:E; cbn [sound].
    + repeat split; try apply once_more; auto; [now apply came_more|]. exists (l0 ++ [Some i]). now rewrite <- app_assoc.
    + apply came_take; [now apply came_more|]. split; [now apply once_more|]. split; [now apply once_more|].
      intros l' L. rewrite S4 in L. injection L as <-. exists i. split; [apply in_or_app; right; now left|]. split; [now apply once_more|]. split; [now apply once_more|]. apply once_last.
      intros v V. rewrite V in E. apply negb_false_iff, opt_str_eqb_eq in E. now symmetry.
  - destruct S as (K & acc & p & S1 & S2 & S3 & S4 & S5). rewrite app_nil_r in S3. subst p. split; [exact K|]. split; [eapply some_of_trans; eassumption|].
    intros r R. split; [apply met_more, S2; eapply some_of_in; eassumption|apply once_more, S5, R].
  - destruct S as (K & acc & p & S1 & S2 & S3 & S4 & S5). apply sound_go. intros b H. split; [exact K|]. exists acc, (p ++ [r]). rewrite <- app_assoc. split; [exact S1|]. split; [intros x X; apply met_more, S2, X|]. split; [exact S3|]. split.
    + destruct b; [now apply some_of_snoc|now apply some_of_skip].
    + intros x X. destruct b; [|apply once_more, S5, X]. apply in_app_iff in X. destruct X as [X|[<-|[]]]; [apply once_more, S5, X|]. apply once_last. now apply (touches_in _ _ _ _ H).
  - destruct S as (K & acc & p & S1 & S2 & S3 & S4). rewrite app_nil_r in S3. subst p. split; [exact K|].
    intros r o R. destruct (S4 r o R) as [S5 S6]. split; [eapply some_of_in; eassumption|]. split; [apply met_more, S2, S5|apply once_more, S6].
  - destruct S as (K & acc & p & S1 & S2 & S3 & S4). apply sound_go. intros l H. split; [exact K|]. exists acc, (p ++ [r]). rewrite <- app_assoc. split; [exact S1|]. split; [intros x X; apply met_more, S2, X|]. split; [exact S3|].
    intros x o X. apply in_app_iff in X. destruct X as [X|X].
    + destruct (S4 x o X) as [S5 S6]. split; [apply in_or_app; now left|apply once_more, S6].
    + apply in_map_iff in X. destruct X as (o' & [= -> ->] & X). split; [apply in_or_app; right; now left|]. apply once_last. exists l. split; [exact H|exact X].
  - destruct x as [[out|out]|y|]; auto.
    + destruct S as (K & S1 & S2). split; [exact K|]. split; [exact S1|]. intros r R. split; [apply met_more|apply once_more]; now apply S2.
    + destruct S as (K & S1). split; [exact K|]. intros r o R. destruct (S1 r o R) as (S2 & S3 & S4). split; [exact S2|]. split; [apply met_more, S3|apply once_more, S4].
Qed.
Lemma sound_turns q s ss : sound q (refs_of s) (s :: ss) (rturns q (s :: ss)).
Proof.
  assert (H : forall ss seen t, t <> RBegin -> sound q (refs_of s) seen t -> sound q (refs_of s) (seen ++ ss) (fold_left (fun t s => rstep q s t) ss t)).
  { clear ss. induction ss as [|x ss IH]; intros seen t B S; cbn [fold_left]; [now rewrite app_nil_r|].
    replace (seen ++ x :: ss) with ((seen ++ [x]) ++ ss) by now rewrite <- app_assoc. apply IH; [now apply rleft_step|now apply sound_step]. }
  unfold rturns. cbn [fold_left]. apply (H ss [s]); [apply rstep_begin|]. cbn [rstep]. apply sound_go. intros _ _. exists []. split; [reflexivity|]. split; [constructor|intros r []].
Qed.

Theorem C170_found : forall q s ss l, rturns q (s :: ss) = RDone (Ok (Found l)) ->
  some_of l (refs_of s)
  /\ forall r, In r l -> met (s :: ss) (q_crit q) r /\ once (s :: ss) (fun s' => touches (q_period q) (obj s' r)).
Proof. intros q s ss l H. assert (S := sound_turns q s ss). rewrite H in S. apply S. Qed.
Print Assumptions C170_found.

Theorem C170_expanded : forall q f s ss l, q_kind q = ROccurrences f -> rturns q (s :: ss) = RDone (Ok (Expanded l)) ->
  forall r o, In (r, o) l -> In r (refs_of s) /\ met (s :: ss) (q_crit q) r
    /\ once (s :: ss) (fun s' => exists os, expand f (obj s' r) (q_period q) = Ok os /\ In o os).
Proof. intros q f s ss l K H. assert (S := sound_turns q s ss). rewrite H in S. destruct S as [_ S]. unfold qfuel in S. rewrite K in S. exact S. Qed.
Print Assumptions C170_expanded.

(** ** Whatever the others do: what is not missed *)
(** the criteria hold of the event for one person *)
Definition holds_for (q : query) (i : string) (e : event) : Prop :=
  good_cat (q_crit q) e /\ good_org (q_crit q) e
  /\ forall l, c_attendees (q_crit q) = Some l -> In (Some i) l /\ takes_part e i /\ good_status (q_crit q) e i /\ good_role (q_crit q) e i.
Definition all_of (q : query) (ss : list system) (r : nat) (out : list (nat * occurrence event)) : Prop :=
  once ss (fun s => exists l, expand (qfuel q) (obj s r) (q_period q) = Ok l /\ forall o, In o l -> In (r, o) out).
Definition kept (q : query) (r : nat) (i : string) (ss : list system) (t : reader) : Prop :=
  match t with
  | RBegin => True
  | RLook todo acc => In r todo \/ In r acc
  | ROrg r' todo acc => r' = r \/ In r todo \/ In r acc
  | RHas r' l todo acc => (r' = r /\ In (Some i) l) \/ In r todo \/ In r acc
  | RStat r' a l todo acc | RRole r' a l todo acc => (r' = r /\ In (Some i) (a :: l)) \/ In r todo \/ In r acc
  | RIn todo out => In r todo \/ In r out
  | RExp todo out => In r todo \/ all_of q ss r out
  | RDone (Ok (Found out)) => In r out
  | RDone (Ok (Expanded out)) => all_of q ss r out
  | RDone _ => True
  end.
Lemma kept_go {A} q r i ss (x : res A) f : (forall v, x = Ok v -> kept q r i ss (f v)) -> kept q r i ss (rgo x f).
Proof. intros H. destruct x; cbn; [now apply H|exact I..]. Qed.
Lemma all_more q ss s r out : all_of q ss r out -> all_of q (ss ++ [s]) r out.
Proof. apply once_more. Qed.
Lemma kept_step q snap r i ss s t : t <> RBegin -> holds_for q i (obj s r) -> (q_kind q = REvents -> touches (q_period q) (obj s r)) ->
  sound q snap ss t ->
  kept q r i ss t -> kept q r i (ss ++ [s]) (rstep q s t).
Proof.
  intros B (HC & HO & HP) HT SO S.
  assert (SN : forall (acc : list nat) x, In r acc -> In r (acc ++ [x])) by (intros; apply in_or_app; now left).
  destruct t as [|[|r' todo] acc|r' todo acc|r' [|a l] todo acc|r' a l todo acc|r' a l todo acc|[|r' todo] out|[|r' todo] out|x]; cbn [rstep kept sound] in *; try contradiction.
  - destruct S as [[]|S]. destruct (q_kind q); now left.
  - destruct (c_categories (q_crit q)) as [cats|] eqn:C.
    + destruct (existsb (in_category (obj s r')) cats) eqn:E; cbn [negb kept].
      * destruct S as [[->|S]|S]; auto.
      * destruct S as [[->|S]|S]; auto. exfalso. destruct (HC cats C) as (x & X & Y). assert (existsb (in_category (obj s r)) cats = true); [|congruence].
        apply existsb_exists. exists x. split; [exact X|]. unfold in_category. now apply str_in_iff.
    + cbn [kept]. destruct S as [[->|S]|S]; auto.
  - apply kept_go. intros w W. destruct w; cbn [kept].
    + destruct S as [->|S]; auto. exfalso. destruct (c_organizer (q_crit q)) as [o|] eqn:O; [|discriminate]. destruct (HO o O) as (k & -> & Y). cbn in W. unfold get_organizer_id in W. rewrite Y in W. cbn in W. rewrite String.eqb_refl in W. discriminate.
    + destruct (c_attendees (q_crit q)) as [l|] eqn:A; cbn [kept].
      * destruct S as [->|S]; auto. left. split; [reflexivity|]. now apply (HP l).
      * destruct S as [->|[S|S]]; auto. right. apply in_or_app. right. now left.
  - destruct S as [[_ []]|S]; auto.
  - apply kept_go. intros h H. destruct h; cbn [kept].
    + destruct S as [[-> S]|S]; auto.
    + destruct S as [[-> [->|S]]|S]; auto. exfalso. unfold has_attendee, get_status in H. cbn in H. destruct (dget (e_state (obj s r)) i) eqn:D; [discriminate H|].
      assert (W : exists l, c_attendees (q_crit q) = Some l) by (destruct SO as (_ & _ & _ & l0 & W); eauto). destruct W as [l' W]. destruct (HP l' W) as (_ & Y & _). contradiction.
  - apply kept_go. intros st H. cbn in H. destruct (match c_status _ with Some _ => _ | None => _ end) eqn:E; cbn [kept].
    + destruct S as [[-> [->|S]]|S]; auto. exfalso. cbn in H. injection H as <-.
      assert (W : exists l, c_attendees (q_crit q) = Some l) by (destruct SO as (_ & _ & _ & k & (_ & l0 & W) & _); eauto). destruct W as [l' W]. destruct (HP l' W) as (_ & _ & Y & _).
      destruct (c_status (q_crit q)) as [v|] eqn:V; [|discriminate]. rewrite (Y v V), opt_str_eqb_refl in E. discriminate.
    + destruct S as [[-> S]|S]; auto.
  - apply kept_go. intros st H. cbn in H. destruct (match c_role _ with Some _ => _ | None => _ end) eqn:E; cbn [kept].
    + destruct S as [[-> [->|S]]|S]; auto. exfalso. cbn in H. injection H as <-.
      assert (W : exists l, c_attendees (q_crit q) = Some l) by (destruct SO as (_ & _ & _ & k & (_ & l0 & W) & _); eauto). destruct W as [l' W]. destruct (HP l' W) as (_ & _ & _ & Y).
      destruct (c_role (q_crit q)) as [v|] eqn:V; [|discriminate]. rewrite (Y v V), opt_str_eqb_refl in E. discriminate.
    + destruct S as [[-> S]|[S|S]]; auto. right. apply in_or_app. right. now left.
  - destruct S as [[]|S]. exact S.
  - apply kept_go. intros b H. cbn [kept]. destruct S as [[->|S]|S]; auto.
    + right. assert (b = true) by (apply (touches_in _ _ _ _ H), HT, SO). subst b. apply in_or_app. right. now left.
    + right. destruct b; auto.
  - destruct S as [[]|S]. now apply all_more.
  - apply kept_go. intros l H. cbn [kept]. destruct S as [[->|S]|S]; auto.
    + right. apply once_last. exists l. split; [exact H|]. intros o O. apply in_or_app. right. now apply in_map.
    + right. apply once_more. destruct S as (x & X & l' & L & Y). exists x. split; [exact X|]. exists l'. split; [exact L|]. intros o O. apply in_or_app. left. auto.
  - destruct x as [[out|out]|y|]; auto. now apply all_more.
Qed.
Lemma kept_turns q r i s ss : In r (refs_of s) ->
  (forall s', In s' (s :: ss) -> holds_for q i (obj s' r) /\ (q_kind q = REvents -> touches (q_period q) (obj s' r))) ->
  kept q r i (s :: ss) (rturns q (s :: ss)).
Proof.
  intros R A.
  assert (H : forall ss seen t, t <> RBegin -> sound q (refs_of s) seen t -> kept q r i seen t ->
     (forall s', In s' ss -> holds_for q i (obj s' r) /\ (q_kind q = REvents -> touches (q_period q) (obj s' r))) ->
     kept q r i (seen ++ ss) (fold_left (fun t s => rstep q s t) ss t)).
  { clear. induction ss as [|x ss IH]; intros seen t B S K A; cbn [fold_left]; [now rewrite app_nil_r|].
    replace (seen ++ x :: ss) with ((seen ++ [x]) ++ ss) by now rewrite <- app_assoc. destruct (A x (or_introl eq_refl)) as [A1 A2].
    apply IH; [now apply rleft_step|now apply sound_step|eapply kept_step; eassumption|intros s' S'; apply A; now right]. }
  unfold rturns. cbn [fold_left]. apply (H ss [s]).
  - apply rstep_begin.
  - cbn [rstep]. apply sound_go. intros _ _. exists []. split; [reflexivity|]. split; [constructor|intros x []].
  - cbn [rstep]. apply kept_go. intros _ _. now left.
  - intros s' S'. apply A. now right.
Qed.

(** an event that meets all conditions all the time is found.  Missing: the person who makes it
    match must be the same all the time, see C170_missed_refuted *)
Theorem C170_kept_partial : forall q s ss l r i, rturns q (s :: ss) = RDone (Ok (Found l)) -> In r (refs_of s) ->
  (forall s', In s' (s :: ss) -> holds_for q i (obj s' r) /\ touches (q_period q) (obj s' r)) -> In r l.
Proof.
  intros q s ss l r i H R A. assert (K := kept_turns q r i s ss R). rewrite H in K. apply K. intros s' S'. destruct (A s' S'). auto.
Qed.
Print Assumptions C170_kept_partial.

(** and all its occurrences, as they were at one moment *)
Theorem C170_kept_occurrences_partial : forall q f s ss l r i, q_kind q = ROccurrences f -> rturns q (s :: ss) = RDone (Ok (Expanded l)) -> In r (refs_of s) ->
  (forall s', In s' (s :: ss) -> holds_for q i (obj s' r)) ->
  once (s :: ss) (fun s' => exists os, expand f (obj s' r) (q_period q) = Ok os /\ forall o, In o os -> In (r, o) l).
Proof.
  intros q f s ss l r i Q H R A. assert (K := kept_turns q r i s ss R). rewrite H in K. cbn [kept] in K. unfold all_of, qfuel in K. rewrite Q in K.
  apply K. intros s' S'. split; [now apply A|discriminate].
Qed.
Print Assumptions C170_kept_occurrences_partial.


(** ** Creating and deleting meanwhile *)
(** the calls that only create or delete events *)
Definition adds (o : op) : Prop := match o with OCreate _ _ _ | OAttendeeCreate _ _ _ | ODelete _ => True | _ => False end.
(** some such calls lead from one state to the other *)
Definition added (cf : config) (s s' : system) : Prop := exists ops, Forall adds ops /\ s' = fold_left (fun s o => sst (step cf s o)) ops s.

Lemma adds_obj cf s o r : adds o -> (r < List.length (sys_heap s))%nat ->
  obj (sst (step cf s o)) r = obj s r /\ (List.length (sys_heap s) <= List.length (sys_heap (sst (step cf s o))))%nat.
Proof.
  assert (C : forall uid sp now, (r < List.length (sys_heap s))%nat -> obj (sst (drop (create_event cf s uid sp now))) r = obj s r
     /\ (List.length (sys_heap s) <= List.length (sys_heap (sst (drop (create_event cf s uid sp now)))))%nat).
  { intros uid sp now L. unfold create_event. destruct (new_event _ sp) as [e|x|]; cbn [drop sst fst sfail]; [|split; [reflexivity|lia]..].
    unfold obj. cbn [sys_heap]. rewrite app_nth1 by exact L. rewrite app_length. split; [reflexivity|lia]. }
  destruct o; cbn [adds]; intros A L; try contradiction; cbn [step]; auto.
  unfold delete_event. destruct (ddel _ _); cbn [sst fst sfail]; split; try reflexivity; lia.
Qed.
Lemma added_obj cf s s' r : added cf s s' -> (r < List.length (sys_heap s))%nat -> obj s' r = obj s r.
Proof.
  intros (ops & F & ->). revert s. induction F as [|o ops A F IH]; intros s L; cbn [fold_left]; [reflexivity|].
  destruct (adds_obj cf s o r A L) as [E G]. rewrite IH by lia. exact E.
Qed.

(** the answer is that of the state in which the call began, whatever is created or deleted meanwhile *)
Theorem C170_undisturbed : forall cf q s ss, reachable cf s -> (forall s', In s' ss -> added cf s s') ->
  (limit q s <= List.length ss)%nat -> exists x, rturns q (s :: ss) = RDone x /\ as_of q s x.
Proof.
  intros cf q s ss R A L. apply C170_quiet; [|exact L]. intros s' r S I. apply (added_obj cf); [now apply A|].
  unfold refs_of in I. apply in_map_iff in I. destruct I as ([u k] & E & I). cbn [snd] in E. subst k.
  destruct (reachable_store cf s R) as [ND ST]. apply (in_dget _ _ _ ND) in I. destruct (ST u r I) as [X _]. exact X.
Qed.
Print Assumptions C170_undisturbed.

(** ** One moment *)
(** without wishes about categories, organizer and role, an event found met the criteria at
    some moment.  Missing: the other criteria, see C170_never_refuted *)
Theorem C170_one_moment_partial : forall q s ss l r, rturns q (s :: ss) = RDone (Ok (Found l)) -> In r l ->
  c_categories (q_crit q) = None -> c_organizer (q_crit q) = None -> c_role (q_crit q) = None ->
  once (s :: ss) (fun s' => meets (q_crit q) (obj s' r)).
Proof.
  intros q s ss l r H R C O RO. destruct (C170_found q s ss l H) as [_ F]. destruct (F r R) as [(_ & _ & M) _].
  assert (G1 : forall e, good_cat (q_crit q) e) by (intros e x X; congruence).
  assert (G2 : forall e, good_org (q_crit q) e) by (intros e x X; congruence).
  assert (G3 : forall e i, good_role (q_crit q) e i) by (intros e i x X; congruence).
  destruct (c_attendees (q_crit q)) as [al|] eqn:A.
  - destruct (M al eq_refl) as (i & I & (s1 & S1 & T1) & (s2 & S2 & T2) & _).
    destruct (c_status (q_crit q)) as [v|] eqn:V.
    + exists s2. split; [exact S2|]. split; [apply G1|]. split; [apply G2|]. intros l' L. rewrite A in L. injection L as <-. exists i. split; [exact I|]. split; [|split; [exact T2|apply G3]].
      unfold takes_part. rewrite (T2 v V). discriminate.
    + exists s1. split; [exact S1|]. split; [apply G1|]. split; [apply G2|]. intros l' L. rewrite A in L. injection L as <-. exists i. split; [exact I|]. split; [exact T1|]. split; [intros x X; congruence|apply G3].
  - exists s. split; [now left|]. split; [apply G1|]. split; [apply G2|]. intros l' L. congruence.
Qed.
Print Assumptions C170_one_moment_partial.

(** ** What the code does not give *)
Definition rd_spec (d : Z) : spec := p_spec (p_at d 9) (Some HOUR) false bob [(ann, "REQ-PARTICIPANT", Some "ACCEPTED"); (bob, "CHAIR", Some "DECLINED")]%string.
Definition rd_ops : list op := [OCreate (Some "m"%string) (rd_spec 732502) 0; OCreate (Some "n"%string) (rd_spec 732503) 0].
Definition rd_query (l : list attendee) (st ro : option string) : query := mkQuery REvents (None, None) (mk_criteria (AMany l) st ro None None).
Definition rd_now (ops : list op) : system := run cf0 (rd_ops ++ ops).
Definition says (q : query) (s : system) : res (list string) :=
  let* l := get_events (stored s) (q_period q) (Some (q_crit q)) in Ok (map e_uid l).

(** an event can be found although it never met the criteria: its person had the status first
    and the role later *)
Theorem C170_never_refuted :
  exists q o1 o2, let A := rd_now [ODelete 1] in let B := rd_now [ODelete 1; o1] in let C := rd_now [ODelete 1; o1; o2] in
  rturns q ([A; A; A; A; A] ++ [C; C; C; C]) = RDone (Ok (Found [0%nat]))
  /\ says q A = Ok [] /\ says q B = Ok [] /\ says q C = Ok [].
Proof.
  exists (rd_query [ann] (Some "ACCEPTED") (Some "CHAIR"))%string, (OSetStatus 0 ann (Some "DECLINED"))%string, (OSetRole 0 ann "CHAIR")%string.
  vm_compute. repeat split.
Qed.
Print Assumptions C170_never_refuted.

(** an event can be missed although it meets the criteria all the time, first by one person,
    then by another *)
Theorem C170_missed_refuted :
  exists q o1 o2, let A := rd_now [ODelete 1] in let B := rd_now [ODelete 1; o1] in let C := rd_now [ODelete 1; o1; o2] in
  rturns q ([A; A; A; A; A] ++ [C; C; C; C; C; C]) = RDone (Ok (Found []))
  /\ says q A = Ok ["m"%string] /\ says q B = Ok ["m"%string] /\ says q C = Ok ["m"%string].
Proof.
  exists (rd_query [bob; ann] (Some "ACCEPTED") None)%string, (OSetStatus 0 bob (Some "ACCEPTED"))%string, (OSetStatus 0 ann (Some "DECLINED"))%string.
  vm_compute. repeat split.
Qed.
Print Assumptions C170_missed_refuted.

(** two events can be found together although at no moment both met the criteria *)
Theorem C170_mixed_refuted :
  exists q o1 o2, let A := rd_now [OSetStatus 1 ann (Some "DECLINED"%string)] in
  let B := rd_now [OSetStatus 1 ann (Some "DECLINED"%string); o1] in let C := rd_now [OSetStatus 1 ann (Some "DECLINED"%string); o1; o2] in
  rturns q ([A; A; A; A; A; A] ++ [C; C; C; C; C; C; C; C; C]) = RDone (Ok (Found [0; 1]%nat))
  /\ says q A = Ok ["m"%string] /\ says q B = Ok [] /\ says q C = Ok ["n"%string].
Proof.
  exists (rd_query [ann] (Some "ACCEPTED") None)%string, (OSetStatus 0 ann (Some "DECLINED"))%string, (OSetStatus 1 ann (Some "ACCEPTED"))%string.
  vm_compute. repeat split.
Qed.
Print Assumptions C170_mixed_refuted.

(** a query during which one event is deleted and another created *)
Definition rd_busy : list system :=
  repeat (rd_now [ODelete 0]) 3 ++ repeat (rd_now [ODelete 0; OCreate (Some "o"%string) (rd_spec 732504) 0]) 20.
Example C170_case :
  let s := rd_now [] in let q := rd_query [ann] (Some "ACCEPTED"%string) None in
  let q' := mkQuery (ROccurrences 5) (Some (p_at 732502 0), Some (p_at 732503 10)) (q_crit q) in
  reachable cf0 s /\ (forall s', In s' rd_busy -> added cf0 s s') /\ (limit q s <= List.length rd_busy)%nat
  /\ rturns q (s :: rd_busy) = RDone (Ok (Found [0; 1]%nat))
  /\ (exists a b, rturns q' (s :: rd_busy) = RDone (Ok (Expanded [(0%nat, a); (1%nat, b)])))
  /\ (forall s', In s' (s :: rd_busy) -> holds_for q "ann" (obj s' 1) /\ touches (q_period q) (obj s' 1)).
Proof.
  cbn zeta. split; [apply run_reachable|]. split.
  { intros s' H. unfold rd_busy in H. apply in_app_iff in H. destruct H as [H|H]; apply repeat_spec in H; subst s'; unfold rd_now, run; rewrite app_nil_r, fold_left_app;
    eexists; (split; [|reflexivity]); repeat constructor. }
  split; [vm_compute; lia|]. split; [vm_compute; reflexivity|]. split; [vm_compute; eauto|].
  assert (E : forall s', In s' (rd_now [] :: rd_busy) -> obj s' 1 = obj (rd_now []) 1).
  { intros s' H. unfold rd_busy in H. cbn [In] in H. rewrite in_app_iff in H. destruct H as [<-|[H|H]]; [reflexivity|apply repeat_spec in H; subst s'; vm_compute; reflexivity..]. }
  intros s' H. rewrite (E s' H). split; [|split; discriminate]. split; [discriminate|]. split; [discriminate|].
  intros l L. vm_compute in L. injection L as <-. split; [now left|]. split; [vm_compute; discriminate|]. split; [|discriminate]. intros v V. vm_compute in V. injection V as <-. reflexivity.
Qed.
