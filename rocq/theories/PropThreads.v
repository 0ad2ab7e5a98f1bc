(** Property theorems C168: calls that run at the same time. *)
From Verif Require Import Base PyDate DateFacts Recurrent CalTime TimeProofs Event Storage QueryProofs EventProofs ICal System
  SpecProofs SystemProofs ImportTwice PropSystem PropEvent PropExact Threads.

(** ** Specification *)
(** a person's status and role in an event *)
Definition cell (s : system) (r : nat) (i : string) : option string * option string :=
  (dget (e_state (obj s r)) i, dget (e_role (obj s r)) i).
(** what thread [j] has announced *)
Definition said (j : nat) (out : list (nat * notification)) : list notification :=
  map snd (filter (fun p => Nat.eqb (fst p) j) out).
(** whose answer in which event the call changes *)
Definition target (c : call) : list (nat * string) := match c with KStatus r (Some i) _ => [(r, i)] | _ => [] end.
(** no two calls change the same person's answer in the same event *)
Definition separate (cs : list call) : Prop := NoDup (flat_map target cs).
(** the events exist before *)
Definition about (s : system) (cs : list call) : Prop :=
  forall c, In c cs -> match c with KStatus r _ _ | KDelete r => (r < List.length (sys_heap s))%nat | KCreate _ _ _ => True end.
(** what the calls did to the dictionary of events, in order: thread, id, and the object
    entered, or None for a deletion *)
Definition done := (nat * string * option nat)%type.
(** the dictionary after that; a deletion must find its key *)
Fixpoint replay (d : dict nat) (log : list done) : option (dict nat) :=
  match log with
  | [] => Some d
  | (_, u, Some r) :: log => replay (dset d u r) log
  | (_, u, None) :: log => match dget d u with Some _ => replay (drem d u) log | None => None end
  end.
(** at some moment the dictionary was so *)
Definition at_some (d : dict nat) (log : list done) (P : dict nat -> Prop) : Prop :=
  exists log1 log2 d1, log = log1 ++ log2 /\ replay d log1 = Some d1 /\ P d1.
(** the id of the call: the one given, or one made at its time with the number of events
    stored at some moment *)
Definition named (cf : config) (d : dict nat) (log : list done) (uid : option string) (now : Z) (u : string) : Prop :=
  match uid with Some v => u = v | None => at_some d log (fun d1 => u = generated_id cf now (List.length d1)) end.

(** ** Proofs *)
Definition w_sys (w : running) : system := fst (fst w).
Definition w_out (w : running) : list (nat * notification) := snd (fst w).
Definition w_threads (w : running) : list thread := snd w.

Lemma get_nth {A} (l : list A) x y j k : nth_error l j = Some y ->
  nth_error (replace_nth j l x) k = if Nat.eqb k j then Some x else nth_error l k.
Proof.
  revert j k. induction l as [|z l IH]; intros [|j] [|k]; cbn; try discriminate; try reflexivity. intros H. now apply IH.
Qed.
Lemma said_app j o o' : said j (o ++ o') = said j o ++ said j o'.
Proof. unfold said. now rewrite filter_app, map_app. Qed.
Lemma said_pair j k n : said j (map (pair k) n) = if Nat.eqb k j then n else [].
Proof.
  unfold said. induction n as [|x n IH]; cbn [map filter fst]; [now destruct (Nat.eqb k j)|].
  destruct (Nat.eqb k j); cbn [map snd]; now rewrite IH.
Qed.

(** which call a thread is busy with *)
Definition belongs (c : call) (t : thread) : Prop :=
  match t with
  | Begun c' => c' = c
  | Named _ sp => exists uid now, c = KCreate uid sp now
  | Asked r i _ new => c = KStatus r (Some i) new
  | Forgot r i _ => c = KStatus r (Some i) None
  | Ready (NCreated _) => exists uid sp now, c = KCreate uid sp now
  | Ready (NParticipation _ _ _ _) => exists r a st, c = KStatus r a st
  | Ready (NDeleted _) => exists r, c = KDelete r
  | Ready _ => False
  | Ended _ => True
  end.
Lemma belongs_step cf s c t : belongs c t -> belongs c (snd (tstep cf s t)).
Proof.
  destruct t as [c'|u sp|r i old new|r i old|n|x]; cbn [belongs tstep]; intros B.
  - subst c'. destruct c as [uid sp now|r a st|r]; cbn [snd belongs]; [eauto| |destruct (ddel _ _); cbn [snd belongs]; eauto].
    destruct (match st with None => true | Some _ => _ end); [|exact I]. destruct a as [i|]; [|exact I]. cbn [snd]. destruct (opt_str_eqb _ st); [exact I|reflexivity].
  - destruct (new_event u sp); cbn [snd belongs]; try exact I. destruct B as (uid & now & ->). eauto.
  - destruct new as [v|]; cbn [snd belongs]; [eauto|]. destruct (ddel _ i); cbn [snd belongs]; auto.
  - destruct (ddel _ i); cbn [snd belongs]; eauto.
  - exact I.
  - exact I.
Qed.

(** what one action leaves alone *)
Lemma obj_put s r e k : (r < List.length (sys_heap s))%nat -> obj (put s r e) k = if Nat.eqb k r then e else obj s k.
Proof.
  intros L. unfold put. rewrite obj_heap, replace_nth_get. destruct (Nat.eqb_spec k r) as [->|]; [|reflexivity].
  cbn [andb]. now rewrite (proj2 (Nat.ltb_lt _ _) L).
Qed.
Lemma obj_put_out s r e k : (List.length (sys_heap s) <= r)%nat -> obj (put s r e) k = obj s k.
Proof.
  intros L. unfold put. rewrite obj_heap, replace_nth_get. rewrite (proj2 (Nat.ltb_ge _ _) L), Bool.andb_false_r. reflexivity.
Qed.
Lemma obj_push s e d a b k : (k < List.length (sys_heap s))%nat -> obj (mkSys (sys_heap s ++ [e]) d a b) k = obj s k.
Proof. intros L. unfold obj. cbn [sys_heap]. now rewrite app_nth1. Qed.

Lemma put_frame s r f k (P : event -> Prop) : (P (obj s r) -> P (f (obj s r))) -> (P (obj s k)) -> P (obj (put s r (f (obj s r))) k).
Proof.
  intros H K. destruct (Nat.lt_ge_cases r (List.length (sys_heap s))) as [L|L].
  - rewrite obj_put by exact L. destruct (Nat.eqb_spec k r) as [->|]; auto.
  - now rewrite obj_put_out.
Qed.

Lemma turn_grows cf s t : (List.length (sys_heap s) <= List.length (sys_heap (fst (fst (tstep cf s t)))))%nat.
Proof.
  destruct t as [[uid sp now|r a st|r]|u sp|r i old [v|]|r i old|n|x]; cbn [tstep]; try (cbn; lia).
  - destruct (match st with None => true | Some _ => _ end); [destruct a|]; cbn; lia.
  - destruct (ddel _ _); cbn; lia.
  - destruct (new_event u sp); cbn; rewrite ?app_length; cbn; lia.
  - unfold put. cbn. rewrite replace_nth_length. lia.
  - destruct (ddel _ i); unfold put; cbn; rewrite ?replace_nth_length; lia.
  - destruct (ddel _ i); unfold put; cbn; rewrite ?replace_nth_length; lia.
Qed.

Lemma ddel_nodup (d d' : dict string) i : NoDup (dkeys d) -> ddel d i = Ok d' -> NoDup (dkeys d') /\ forall j, dget d' j = if String.eqb j i then None else dget d j.
Proof.
  unfold ddel. destruct (dget d i); [|discriminate]. intros N E. injection E as <-. split; [now apply drem_nodup|]. intros j. now apply dget_drem.
Qed.

(** object [k] keeps its id and its form; only the cell of the thread changes *)
Lemma turn_frame cf s t k : (k < List.length (sys_heap s))%nat -> dicts_ok (obj s k) ->
  let s' := fst (fst (tstep cf s t)) in
  e_uid (obj s' k) = e_uid (obj s k) /\ dicts_ok (obj s' k)
  /\ forall i, match t with Asked r j _ _ | Forgot r j _ => (r, j) <> (k, i) | _ => True end -> cell s' k i = cell s k i.
Proof.
  intros L D. destruct t as [[uid sp now|r a st|r]|u sp|r i old [v|]|r i old|n|x]; cbn [tstep]; cbv zeta; try (cbn [fst]; now auto).
  - destruct (match st with None => true | Some _ => _ end); [destruct a|]; cbn [fst]; auto.
  - destruct (ddel _ _); cbn [fst]; auto.
  - destruct (new_event u sp); cbn [fst]; auto. unfold cell. rewrite !obj_push by exact L. auto.
  - cbn [fst]. unfold cell. destruct (Nat.lt_ge_cases r (List.length (sys_heap s))) as [R|R]; [rewrite obj_put by exact R|now rewrite obj_put_out].
    destruct (Nat.eqb_spec k r) as [->|]; [|auto]. split; [reflexivity|]. split; [split; [now apply dset_nodup, D|apply D]|].
    intros j N. cbn [e_state e_role with_state]. rewrite dget_dset. destruct (String.eqb_spec j i) as [->|]; [congruence|reflexivity].
  - destruct (ddel (e_state (obj s r)) i) as [d| |] eqn:E; cbn [fst]; auto. unfold cell.
    destruct (Nat.lt_ge_cases r (List.length (sys_heap s))) as [R|R]; [rewrite obj_put by exact R|now rewrite obj_put_out].
    destruct (Nat.eqb_spec k r) as [->|]; [|auto]. destruct (ddel_nodup _ _ _ (proj1 D) E) as [N G].
    split; [reflexivity|]. split; [split; [exact N|apply D]|]. intros j M. cbn [e_state e_role with_state]. rewrite G. destruct (String.eqb_spec j i) as [->|]; [congruence|reflexivity].
  - destruct (ddel (e_role (obj s r)) i) as [d| |] eqn:E; cbn [fst]; auto. unfold cell.
    destruct (Nat.lt_ge_cases r (List.length (sys_heap s))) as [R|R]; [rewrite obj_put by exact R|now rewrite obj_put_out].
    destruct (Nat.eqb_spec k r) as [->|]; [|auto]. destruct (ddel_nodup _ _ _ (proj2 D) E) as [N G].
    split; [reflexivity|]. split; [split; [apply D|exact N]|]. intros j M. cbn [e_state e_role with_role]. rewrite G. destruct (String.eqb_spec j i) as [->|]; [congruence|reflexivity].
Qed.

(** ** One thread by itself *)
(** without others a thread does what the call does in System.v *)
Lemma put_obj_same s r : put s r (obj s r) = s.
Proof. unfold put, obj. rewrite replace_nth_self. now destruct s. Qed.
Lemma put_put s r e e' : put (put s r e) r e' = put s r e'.
Proof.
  unfold put, with_heap. cbn [sys_heap sys_store sys_source sys_cals]. apply f_equal4; try reflexivity.
  generalize (sys_heap s). intros l. revert r. induction l as [|x l IH]; intros [|r]; cbn [replace_nth]; try reflexivity. now rewrite IH.
Qed.
Ltac turn := cbn [go nth_error tstep replace_nth app map].
Theorem C168_alone : forall cf s c,
  let m := step cf s (op_of c) in
  take_turns cf (start s [c]) [0; 0; 0; 0]%nat = (sst m, map (pair 0%nat) (snt m), [Ended (srs m)]).
Proof.
  intros cf s c. cbv zeta. unfold take_turns, start. cbn [fold_left map]. destruct c as [uid sp now|r a st|r]; cbn [op_of step].
  - unfold create_event. turn. set (u := match uid with Some u => u | None => _ end). destruct (new_event u sp) as [e| |]; reflexivity.
  - unfold on_event, set_status, get_status. turn. destruct (match st with None => true | Some _ => _ end).
    2:{ turn. unfold sst, snt, srs. cbn [fst snd map]. now rewrite <- (put_obj_same s r) at 1. }
    destruct a as [i|]; cbn [attendee_id rbind].
    2:{ turn. unfold sst, snt, srs. cbn [fst snd map]. now rewrite <- (put_obj_same s r) at 1. }
    turn. destruct (opt_str_eqb _ st) eqn:Q; turn.
    { unfold sst, snt, srs. cbn [fst snd map]. now rewrite <- (put_obj_same s r) at 1. }
    unfold set_status_raw. cbn [attendee_id]. destruct st as [v|]; [reflexivity|].
    destruct (ddel (e_state (obj s r)) i) as [d| |] eqn:E; turn.
    2,3: unfold sst, snt, srs, mbind; cbn [fst snd map]; now rewrite <- (put_obj_same s r) at 1.
    assert (L : (r < List.length (sys_heap s))%nat).
    { destruct (Nat.lt_ge_cases r (List.length (sys_heap s))) as [L|L]; [exact L|]. unfold obj in E. rewrite nth_overflow in E by exact L. discriminate. }
    rewrite obj_put by exact L. rewrite Nat.eqb_refl. cbn [e_role with_state].
    destruct (ddel (e_role (obj s r)) i) as [d'| |]; turn; unfold sst, snt, srs, mbind; cbn [fst snd map app e_uid with_state with_role]; try reflexivity.
    now rewrite put_put.
  - unfold delete_event. turn. destruct (ddel _ _); reflexivity.
Qed.

(** four turns are enough *)
Definition todo (t : thread) : nat :=
  match t with Begun _ => 4 | Asked _ _ _ _ => 3 | Named _ _ | Forgot _ _ _ => 2 | Ready _ => 1 | Ended _ => 0 end%nat.
Lemma todo_step cf s t : (todo (snd (tstep cf s t)) <= pred (todo t))%nat.
Proof.
  destruct t as [[uid sp now|r a st|r]|u sp|r i old [v|]|r i old|n|x]; cbn [tstep todo snd pred]; try lia.
  - destruct (match st with None => true | Some _ => _ end); [destruct a|]; cbn [snd todo]; try lia. destruct (opt_str_eqb _ st); cbn [todo]; lia.
  - destruct (ddel _ _); cbn [snd todo]; lia.
  - destruct (new_event u sp); cbn [snd todo]; lia.
  - destruct (ddel _ i); cbn [snd todo]; lia.
  - destruct (ddel _ i); cbn [snd todo]; lia.
Qed.
Theorem C168_ends : forall cf s cs sched j c, nth_error cs j = Some c -> (4 <= count_occ Nat.eq_dec sched j)%nat ->
  exists x, nth_error (w_threads (take_turns cf (start s cs) sched)) j = Some (Ended x).
Proof.
  intros cf s cs sched j c N C.
  assert (G : forall sched w t, nth_error (w_threads w) j = Some t -> exists t', nth_error (w_threads (take_turns cf w sched)) j = Some t' /\ (todo t' <= todo t - count_occ Nat.eq_dec sched j)%nat).
  { clear. induction sched as [|k sched IH]; intros w t T; cbn [count_occ]; [exists t; split; [exact T|lia]|]. unfold take_turns. cbn [fold_left].
    assert (X : exists t1, nth_error (w_threads (go cf w k)) j = Some t1 /\ (todo t1 <= todo t - (if Nat.eq_dec k j then 1 else 0))%nat).
    { destruct w as [[s out] ts]. unfold w_threads in *. cbn [go snd] in *. destruct (nth_error ts k) as [tk|] eqn:K.
      - destruct (tstep cf s tk) as [[s' n] t'] eqn:S. cbn [snd]. rewrite (get_nth _ _ _ _ _ K). destruct (Nat.eqb_spec j k) as [->|NE].
        + exists t'. split; [reflexivity|]. assert (tk = t) as -> by congruence. pose proof (todo_step cf s t) as Y. rewrite S in Y. cbn [snd] in Y. destruct (Nat.eq_dec k k); lia.
        + exists t. split; [exact T|]. destruct (Nat.eq_dec k j); [congruence|lia].
      - exists t. split; [exact T|]. destruct (Nat.eq_dec k j) as [->|]; [congruence|lia]. }
    destruct X as (t1 & T1 & L1). destruct (IH _ _ T1) as (t2 & T2 & L2). exists t2. split; [exact T2|]. destruct (Nat.eq_dec k j); lia. }
  destruct (G sched (start s cs) (Begun c)) as (t & T & L).
  { unfold start, w_threads. cbn [snd]. rewrite nth_error_map, N. reflexivity. }
  cbn [todo] in L. destruct t; cbn [todo] in L; try lia. eauto.
Qed.

(** ** Different people, or different events *)
Definition cell_of (e : event) (i : string) : option string * option string := (dget (e_state e) i, dget (e_role e) i).
Definition mnt (m : mut) : list notification := snd (fst m).
Definition valid (st : option string) : bool := match st with None => true | Some v => str_in v statuses end.
Definition phase (s0 s : system) (c : call) (t : thread) (o : list notification) : Prop :=
  match c with
  | KCreate _ _ _ | KDelete _ => True
  | KStatus r a st =>
      let m := set_status (obj s0 r) a st in
      let over := forall i, a = Some i -> cell s r i = cell_of (mev m) i in
      match t with
      | Begun _ => o = [] /\ forall i, a = Some i -> cell s r i = cell s0 r i
      | Asked _ i old _ => old = dget (e_state (obj s0 r)) i /\ valid st = true /\ opt_str_eqb old st = false /\ o = [] /\ cell s r i = cell s0 r i
      | Forgot _ i old => old = dget (e_state (obj s0 r)) i /\ old <> None /\ o = [] /\ cell s r i = (None, dget (e_role (obj s0 r)) i)
      | Ready n => mnt m = [n] /\ mres m = Ok tt /\ o = [] /\ over
      | Ended x => mnt m = o /\ mres m = x /\ over
      | Named _ _ => False
      end
  end.

Lemma solo_remove e i : dget (e_state e) i <> None -> dicts_ok e ->
  set_status e (Some i) None = match dget (e_role e) i with
    | Some _ => (with_role (with_state e (drem (e_state e) i)) (drem (e_role e) i), [NParticipation (e_uid e) i (dget (e_state e) i) None], Ok tt)
    | None => (with_state e (drem (e_state e) i), [], Raise KeyError)
    end.
Proof.
  intros S D. destruct (dget (e_role e) i) eqn:R; [apply set_status_none; [exact D|exact S|congruence]|now apply set_status_none_norole].
Qed.

Lemma phase_own cf s0 s c t o r a st : c = KStatus r a st -> belongs c t -> (r < List.length (sys_heap s))%nat -> dicts_ok (obj s0 r) -> dicts_ok (obj s r) -> e_uid (obj s r) = e_uid (obj s0 r) ->
  phase s0 s c t o -> let x := tstep cf s t in phase s0 (fst (fst x)) c (snd x) (o ++ snd (fst x)).
Proof.
  intros -> B L D0 D U. cbv zeta. destruct t as [c'|u sp|r' i old new|r' i old|n|x]; cbn [belongs] in B; cbn [phase tstep].
  - subst c'. intros [-> C]. cbn [app]. unfold set_status, get_status. change (match st with None => true | Some v => str_in v statuses end) with (valid st).
    destruct (valid st) eqn:V; [|cbn [fst snd]; repeat split; exact C].
    destruct a as [i|]; [|cbn [fst snd attendee_id rbind]; repeat split; discriminate]. cbn [attendee_id rbind fst snd].
    assert (G : dget (e_state (obj s r)) i = dget (e_state (obj s0 r)) i) by (pose proof (C i eq_refl) as X; unfold cell in X; congruence).
    rewrite G. destruct (opt_str_eqb _ st) eqn:Q; [repeat split; exact C|]. repeat split; auto.
  - contradiction.
  - injection B as <- -> <-. intros (-> & V & Q & -> & C). unfold cell in C. injection C as C1 C2.
    destruct st as [v|].
    + cbn [fst snd app]. unfold set_status. cbn [valid] in V. rewrite V.
      unfold get_status. cbn [attendee_id rbind]. rewrite Q. unfold set_status_raw. cbn [attendee_id mbind mnt mres mev fst snd app e_uid with_state].
      split; [now rewrite U|]. split; [reflexivity|]. split; [reflexivity|]. intros j J. injection J as <-.
      unfold cell, cell_of. rewrite obj_put by exact L. rewrite Nat.eqb_refl. cbn [e_state e_role with_state]. rewrite !dget_dset, String.eqb_refl. now rewrite C2.
    + unfold ddel. rewrite C1. destruct (dget (e_state (obj s0 r)) i) as [v|] eqn:S; [|discriminate].
      cbn [fst snd app]. split; [congruence|]. split; [discriminate|]. split; [reflexivity|]. unfold cell. rewrite obj_put by exact L. rewrite Nat.eqb_refl.
      cbn [e_state e_role with_state]. rewrite dget_drem by apply D. now rewrite String.eqb_refl, C2.
  - injection B as <- -> ->. intros (-> & S & -> & C). unfold cell in C. injection C as C1 C2. unfold ddel. rewrite C2. rewrite (solo_remove _ _ S D0).
    destruct (dget (e_role (obj s0 r)) i) as [v|] eqn:R; cbn [fst snd app mnt mres mev].
    + split; [now rewrite U|]. split; [reflexivity|]. split; [reflexivity|]. intros j J. injection J as <-. unfold cell, cell_of. rewrite obj_put by exact L. rewrite Nat.eqb_refl.
      cbn [e_state e_role with_state with_role]. rewrite !dget_drem by (apply D0 || apply D). now rewrite String.eqb_refl, C1.
    + split; [reflexivity|]. split; [reflexivity|]. intros j J. injection J as <-. unfold cell, cell_of. cbn [e_state e_role with_state]. rewrite dget_drem by apply D0. now rewrite String.eqb_refl, C1, C2, R.
  - intros (A1 & A2 & -> & A3). cbn [fst snd app]. auto.
  - intros (A1 & A2 & A3). cbn [fst snd]. rewrite app_nil_r. auto.
Qed.

Lemma phase_other s0 s s' c t o : belongs c t -> (forall r i, In (r, i) (target c) -> cell s' r i = cell s r i) -> phase s0 s c t o -> phase s0 s' c t o.
Proof.
  destruct c as [uid sp now|r a st|r]; cbn [phase]; [auto| |auto]. intros B F.
  assert (G : forall i, a = Some i -> cell s' r i = cell s r i) by (intros i ->; apply F; now left).
  destruct t as [c'|u sp|r' i old new|r' i old|n|x]; cbn [belongs] in B.
  - intros [A1 A2]. split; [exact A1|]. intros i E. rewrite (G i E). auto.
  - auto.
  - injection B as <- -> <-. intros (A1 & A2 & A3 & A4 & A5). rewrite (G i eq_refl). auto.
  - injection B as <- -> ->. intros (A1 & A2 & A3 & A4). rewrite (G i eq_refl). auto.
  - intros (A1 & A2 & A3 & A4). repeat split; auto. intros i E. rewrite (G i E). auto.
  - intros (A1 & A2 & A3). repeat split; auto. intros i E. rewrite (G i E). auto.
Qed.

Definition inv (s0 : system) (cs : list call) (w : running) : Prop :=
  let '(s, out, ts) := w in
  (List.length (sys_heap s0) <= List.length (sys_heap s))%nat
  /\ (forall r, (r < List.length (sys_heap s0))%nat -> e_uid (obj s r) = e_uid (obj s0 r) /\ dicts_ok (obj s r))
  /\ (forall r i, (r < List.length (sys_heap s0))%nat -> ~ In (r, i) (flat_map target cs) -> cell s r i = cell s0 r i)
  /\ (forall j, nth_error ts j = None <-> nth_error cs j = None)
  /\ forall j c t, nth_error cs j = Some c -> nth_error ts j = Some t -> belongs c t /\ phase s0 s c t (said j out).

Lemma NoDup_app_parts {A} (l1 l2 : list A) : NoDup (l1 ++ l2) -> NoDup l2 /\ forall x, In x l1 -> ~ In x l2.
Proof.
  induction l1 as [|a l1 IH]; cbn [app]; intros N; [split; [exact N|intros x []]|]. inversion N as [|? ? X Y]; subst. destruct (IH Y) as [N2 D].
  split; [exact N2|]. intros x [<-|I] J; [apply X, in_or_app; now right|exact (D x I J)].
Qed.
Lemma targets_differ cs : separate cs -> forall j k c d x, nth_error cs j = Some c -> nth_error cs k = Some d -> In x (target c) -> In x (target d) -> j = k.
Proof.
  unfold separate. induction cs as [|b cs IH]; intros N j k c d x; [destruct j; discriminate|]. cbn [flat_map] in N. apply NoDup_app_parts in N.
  destruct N as (N & X). destruct j as [|j], k as [|k]; cbn [nth_error]; intros J K I1 I2.
  - reflexivity.
  - exfalso. injection J as ->. apply (X x I1). apply in_flat_map. exists d. split; [eapply nth_error_In; eassumption|exact I2].
  - exfalso. injection K as ->. apply (X x I2). apply in_flat_map. exists c. split; [eapply nth_error_In; eassumption|exact I1].
  - f_equal. eapply IH; eassumption.
Qed.

Lemma step_target cf s c t k i : belongs c t -> (k < List.length (sys_heap s))%nat -> dicts_ok (obj s k) -> ~ In (k, i) (target c) ->
  cell (fst (fst (tstep cf s t))) k i = cell s k i.
Proof.
  intros B L D N. apply (turn_frame cf s t k L D). destruct t as [c'|u sp|r j old new|r j old|n|x]; auto; cbn [belongs] in B; subst c; cbn [target In] in N; intros E; apply N; left; exact E.
Qed.

Lemma inv_go cf s0 cs w j : (forall r, dicts_ok (obj s0 r)) -> separate cs -> about s0 cs -> inv s0 cs w -> inv s0 cs (go cf w j).
Proof.
  intros D0 SEP AB. destruct w as [[s out] ts]. intros (I1 & I2 & I3 & I4 & I5). cbn [go]. destruct (nth_error ts j) as [t|] eqn:T; [|now repeat split; auto; try apply I2; try apply I4; try (eapply I5; eassumption)].
  destruct (nth_error cs j) as [c|] eqn:C; [|now rewrite (proj2 (I4 j) C) in T]. destruct (I5 j c t C T) as [B P].
  pose proof (turn_grows cf s t) as GR. pose proof (fun k L => turn_frame cf s t k L) as FR. pose proof (step_target cf s c t) as ST.
  pose proof (belongs_step cf s c t B) as B'. pose proof (phase_own cf s0 s c t (said j out)) as PO.
  destruct (tstep cf s t) as [[s' n] t'] eqn:E. cbn [fst snd] in GR, FR, ST, B', PO. cbn [inv].
  split; [lia|]. split; [|split; [|split]].
  - intros r R. destruct (I2 r R) as [U D]. destruct (FR r ltac:(lia) D) as (U' & D' & _). split; [congruence|exact D'].
  - intros r i R N. destruct (I2 r R) as [_ D]. rewrite <- (I3 r i R N). apply ST; [exact B|lia|exact D|]. intros X. apply N, in_flat_map. exists c. split; [eapply nth_error_In; eassumption|exact X].
  - intros k. rewrite (get_nth _ _ _ _ _ T). destruct (Nat.eqb_spec k j) as [->|]; [|apply I4]. rewrite C. split; discriminate.
  - intros k d u K. rewrite (get_nth _ _ _ _ _ T). rewrite said_app, said_pair, (Nat.eqb_sym j k). destruct (Nat.eqb_spec k j) as [->|NE].
    + intros X. injection X as <-. assert (d = c) as -> by congruence. split; [exact B'|]. destruct c as [uid sp now|r a st|r]; [exact I| |exact I].
      assert (R : (r < List.length (sys_heap s0))%nat) by exact (AB _ (nth_error_In _ _ C)). destruct (I2 r R) as [U D].
      now apply (PO r a st eq_refl B ltac:(lia) (D0 r) D U P).
    + intros X. rewrite app_nil_r. destruct (I5 k d u K X) as [B2 P2]. split; [exact B2|]. apply (phase_other s0 s); [exact B2| |exact P2].
      intros r i Y. destruct d as [uid sp now|r' a st|r']; [contradiction| |contradiction]. destruct a as [i'|]; [|contradiction]. destruct Y as [Y|[]]. injection Y as -> ->.
      assert (R : (r < List.length (sys_heap s0))%nat) by exact (AB _ (nth_error_In _ _ K)). destruct (I2 r R) as [_ D].
      apply ST; [exact B|lia|exact D|]. intros Z. apply NE. eapply (targets_differ cs SEP k j); try eassumption. now left.
Qed.

Lemma inv_start s0 cs : (forall r, dicts_ok (obj s0 r)) -> inv s0 cs (start s0 cs).
Proof.
  intros D0. unfold start, inv. split; [lia|]. split; [auto|]. split; [auto|]. split.
  - intros j. rewrite nth_error_map. destruct (nth_error cs j); cbn; split; congruence.
  - intros j c t C. rewrite nth_error_map, C. cbn. intros X. injection X as <-. split; [reflexivity|]. destruct c; cbn [phase]; auto.
Qed.

Lemma inv_turns cf s0 cs sched : (forall r, dicts_ok (obj s0 r)) -> separate cs -> about s0 cs -> inv s0 cs (take_turns cf (start s0 cs) sched).
Proof.
  intros D0 S A. unfold take_turns. assert (X : inv s0 cs (start s0 cs)) by now apply inv_start. revert X. generalize (start s0 cs).
  induction sched as [|j sched IH]; intros w W; [exact W|]. cbn [fold_left]. apply IH. now apply inv_go.
Qed.

(** Whatever the order of the actions: when no two calls change the same person's answer in
    the same event, each call that has ended ended as it would alone, announced what it would
    alone, and left the answer it would alone; all other answers are as before.  Missing:
    calls that change the same answer *)
Theorem C168_separate_partial : forall cf s cs sched, reachable cf s -> separate cs -> about s cs ->
  let w := take_turns cf (start s cs) sched in
  (forall j r a st x, nth_error cs j = Some (KStatus r a st) -> nth_error (w_threads w) j = Some (Ended x) ->
     let m := step cf s (OSetStatus r a st) in
     x = srs m /\ said j (w_out w) = snt m /\ forall i, a = Some i -> cell (w_sys w) r i = cell (sst m) r i)
  /\ (forall r i, (r < List.length (sys_heap s))%nat -> ~ In (r, i) (flat_map target cs) -> cell (w_sys w) r i = cell s r i).
Proof.
  intros cf s cs sched RE SEP AB. cbv zeta. pose proof (inv_turns cf s cs sched (fun r => reachable_dicts_ok cf s r RE) SEP AB) as I.
  destruct (take_turns cf (start s cs) sched) as [[s' out] ts]. unfold w_threads, w_out, w_sys. cbn [fst snd]. destruct I as (_ & _ & I3 & _ & I5).
  split; [|exact I3]. intros j r a st x C T. destruct (I5 j _ _ C T) as [_ P]. cbn [phase] in P. destruct P as (P1 & P2 & P3).
  cbn [step]. unfold on_event. destruct (set_status (obj s r) a st) as [[e n] y]. unfold mnt, mres, mev, sst, snt, srs in *. cbn [fst snd] in *.
  split; [congruence|]. split; [congruence|]. intros i E. rewrite (P3 i E). unfold cell, cell_of. change (with_heap s (replace_nth r (sys_heap s) e)) with (put s r e).
  rewrite obj_put by exact (AB _ (nth_error_In _ _ C)). now rewrite Nat.eqb_refl.
Qed.

(** ** Creations and deletions *)
Definition in_log (j : nat) (log : list done) : Prop := exists u x, In (j, u, x) log.
Definition refs (log : list done) : list nat := flat_map (fun p => match snd p with Some r => [r] | None => [] end) log.
Definition cphase (cf : config) (s0 : system) (log : list done) (j : nat) (c : call) (t : thread) (o : list notification) : Prop :=
  let d := sys_store s0 in
  match c with
  | KStatus _ _ _ => ~ in_log j log
  | KCreate uid sp now =>
      match t with
      | Begun _ => ~ in_log j log /\ o = []
      | Named u _ => ~ in_log j log /\ o = [] /\ named cf d log uid now u
      | Ready n => o = [] /\ exists u r, n = NCreated u /\ In (j, u, Some r) log
      | Ended x => (x = Ok tt /\ exists u r, In (j, u, Some r) log /\ o = [NCreated u])
          \/ (x <> Ok tt /\ ~ in_log j log /\ o = [] /\ exists u, named cf d log uid now u /\ rbind (new_event u sp) (fun _ => Ok tt) = x)
      | _ => False
      end
  | KDelete r =>
      let u := e_uid (obj s0 r) in
      match t with
      | Begun _ => ~ in_log j log /\ o = []
      | Ready n => o = [] /\ n = NDeleted u /\ In (j, u, None) log
      | Ended x => (x = Ok tt /\ In (j, u, None) log /\ o = [NDeleted u])
          \/ (x = Raise KeyError /\ ~ in_log j log /\ o = [] /\ at_some d log (fun d1 => dget d1 u = None))
      | _ => False
      end
  end.
Definition cinv (cf : config) (s0 : system) (cs : list call) (log : list done) (w : running) : Prop :=
  let '(s, out, ts) := w in
  (replay (sys_store s0) log = Some (sys_store s) /\ sys_source s = sys_source s0 /\ sys_cals s = sys_cals s0)
  /\ (List.length (sys_heap s0) <= List.length (sys_heap s))%nat
  /\ (forall r, (r < List.length (sys_heap s0))%nat -> e_uid (obj s r) = e_uid (obj s0 r) /\ dicts_ok (obj s r))
  /\ NoDup (map (fun p => fst (fst p)) log) /\ NoDup (refs log)
  /\ (forall j u x, In (j, u, x) log ->
        match x with
        | Some r => exists uid sp now, nth_error cs j = Some (KCreate uid sp now) /\ named cf (sys_store s0) log uid now u
            /\ new_event u sp = Ok (obj s r) /\ (List.length (sys_heap s0) <= r < List.length (sys_heap s))%nat
        | None => exists r, nth_error cs j = Some (KDelete r) /\ u = e_uid (obj s0 r)
        end)
  /\ (forall j, nth_error ts j = None <-> nth_error cs j = None)
  /\ forall j c t, nth_error cs j = Some c -> nth_error ts j = Some t -> belongs c t /\ cphase cf s0 log j c t (said j out).

Lemma replay_app l : forall d l', replay d (l ++ l') = match replay d l with Some d1 => replay d1 l' | None => None end.
Proof.
  induction l as [|[[j u] [r|]] l IH]; intros d l'; cbn [app replay]; [reflexivity|apply IH|]. destruct (dget d u); [apply IH|reflexivity].
Qed.
Lemma at_some_later d log l P : at_some d log P -> at_some d (log ++ l) P.
Proof. intros (l1 & l2 & d1 & -> & R & H). exists l1, (l2 ++ l), d1. now rewrite app_assoc. Qed.
Lemma at_some_now d log d1 (P : dict nat -> Prop) : replay d log = Some d1 -> P d1 -> at_some d log P.
Proof. intros R H. exists log, [], d1. now rewrite app_nil_r. Qed.
Lemma named_later cf d log l uid now u : named cf d log uid now u -> named cf d (log ++ l) uid now u.
Proof. destruct uid; cbn [named]; [auto|]. apply at_some_later. Qed.

Lemma cphase_other cf s0 log e j k c t o : j <> k -> fst (fst e) = k -> cphase cf s0 log j c t o -> cphase cf s0 (log ++ [e]) j c t o.
Proof.
  intros NE EK. assert (X : ~ in_log j log -> ~ in_log j (log ++ [e])).
  { intros N (u & r & I). apply in_app_or in I. destruct I as [I|[->|[]]]; [apply N; exists u, r; exact I|cbn in EK; congruence]. }
  assert (Y : forall p, In p log -> In p (log ++ [e])) by (intros p I; apply in_or_app; now left).
  destruct c as [uid sp now|r a st|r]; cbn [cphase]; [|exact X|].
  - destruct t; auto.
    + intros [A B]. auto.
    + intros (A & B & C). repeat split; auto. now apply named_later.
    + intros (A & u & r & B & C). split; [exact A|]. exists u, r. auto.
    + intros [(A & u & r & B & C)|(A & B & C & u & D & E)].
      * left. split; [exact A|]. exists u, r. auto.
      * right. repeat split; auto. exists u. split; [now apply named_later|exact E].
  - destruct t; auto.
    + intros [A B]. auto.
    + intros (A & B & C). auto.
    + intros [(A & B & C)|(A & B & C & D)]; [left; auto|right]. repeat split; auto. now apply at_some_later.
Qed.

(** an action that does not touch the dictionary leaves the events made by the calls *)
Lemma turn_quiet cf s c t H : belongs c t -> (forall r a st, c = KStatus r a st -> (r < H)%nat) -> match t with Named _ _ | Begun (KDelete _) => False | _ => True end ->
  let s' := fst (fst (tstep cf s t)) in
  sys_store s' = sys_store s /\ sys_source s' = sys_source s /\ sys_cals s' = sys_cals s /\ List.length (sys_heap s') = List.length (sys_heap s)
  /\ forall k, (H <= k)%nat -> obj s' k = obj s k.
Proof.
  intros B A N. assert (P : forall r e, (r < H)%nat -> sys_store (put s r e) = sys_store s /\ sys_source (put s r e) = sys_source s /\ sys_cals (put s r e) = sys_cals s
    /\ List.length (sys_heap (put s r e)) = List.length (sys_heap s) /\ forall k, (H <= k)%nat -> obj (put s r e) k = obj s k).
  { intros r e R. repeat split; [unfold put; cbn; apply replace_nth_length|]. intros k K. destruct (Nat.lt_ge_cases r (List.length (sys_heap s))) as [L|L].
    - rewrite obj_put by exact L. destruct (Nat.eqb_spec k r); [lia|reflexivity].
    - now apply obj_put_out. }
  destruct t as [[uid sp now|r a st|r]|u sp|r i old [v|]|r i old|n|x]; cbn [tstep]; cbn [belongs] in B; try contradiction; try (cbn; auto 6; fail).
  - destruct (match st with None => true | Some _ => _ end); [destruct a|]; cbn; auto 6.
  - cbn [fst]. apply P. eapply A. exact B.
  - destruct (ddel _ i); cbn [fst]; auto 6. apply P. eapply A. exact B.
  - destruct (ddel _ i); cbn [fst]; auto 6. apply P. eapply A. exact B.
Qed.

Lemma cinv_quiet cf s0 cs log s out ts j c t s' n t' : cinv cf s0 cs log (s, out, ts) -> nth_error cs j = Some c -> nth_error ts j = Some t ->
  tstep cf s t = (s', n, t') -> sys_store s' = sys_store s -> sys_source s' = sys_source s -> sys_cals s' = sys_cals s -> List.length (sys_heap s') = List.length (sys_heap s) ->
  (forall k, (List.length (sys_heap s0) <= k)%nat -> obj s' k = obj s k) ->
  cphase cf s0 log j c t' (said j out ++ n) ->
  cinv cf s0 cs log (s', out ++ map (pair j) n, replace_nth j ts t').
Proof.
  intros (I0 & I1 & I2 & I3 & I4 & I5 & I7 & I6) C T E Q1 Q2 Q3 Q4 Q5 OWN. unfold cinv. rewrite Q1, Q2, Q3, Q4. split; [assumption|]. split; [assumption|]. split.
  { intros r R. destruct (I2 r R) as [U D]. destruct (turn_frame cf s t r ltac:(lia) D) as (U' & D' & _). rewrite E in U', D'. cbn [fst] in U', D'. split; [congruence|exact D']. }
  split; [assumption|]. split; [assumption|]. split; [|split].
  - intros k u x IN. specialize (I5 k u x IN). destruct x as [r|]; [|exact I5]. destruct I5 as (uid & sp & now & X1 & X2 & X3 & X4). exists uid, sp, now. rewrite Q5 by lia. auto.
  - intros k. rewrite (get_nth _ _ _ _ _ T). destruct (Nat.eqb_spec k j) as [->|]; [|apply I7]. rewrite C. split; discriminate.
  - intros k d v K. rewrite (get_nth _ _ _ _ _ T), said_app, said_pair, (Nat.eqb_sym j k). destruct (Nat.eqb_spec k j) as [->|NE].
    + intros X. injection X as <-. assert (d = c) as -> by congruence. split; [|exact OWN]. pose proof (belongs_step cf s c t (proj1 (I6 _ _ _ C T))) as B. rewrite E in B. exact B.
    + intros X. rewrite app_nil_r. now apply I6.
Qed.

Lemma NoDup_snoc {A} (l : list A) x : NoDup l -> ~ In x l -> NoDup (l ++ [x]).
Proof. intros N X. apply NoDup_app_intro; [exact N|constructor; [intros []|constructor]|]. intros y I [<-|[]]. exact (X I). Qed.

Lemma cinv_entry cf s0 cs log s out ts j c t s' t' u x : cinv cf s0 cs log (s, out, ts) -> nth_error cs j = Some c -> nth_error ts j = Some t ->
  tstep cf s t = (s', [], t') -> ~ in_log j log -> replay (sys_store s) [(j, u, x)] = Some (sys_store s') -> sys_source s' = sys_source s -> sys_cals s' = sys_cals s ->
  (List.length (sys_heap s) <= List.length (sys_heap s'))%nat -> (forall k, (k < List.length (sys_heap s))%nat -> obj s' k = obj s k) ->
  match x with
  | Some r => r = List.length (sys_heap s) /\ (r < List.length (sys_heap s'))%nat /\ exists uid sp now, c = KCreate uid sp now /\ named cf (sys_store s0) log uid now u /\ new_event u sp = Ok (obj s' r)
  | None => exists r, c = KDelete r /\ u = e_uid (obj s0 r)
  end -> cphase cf s0 (log ++ [(j, u, x)]) j c t' (said j out) ->
  cinv cf s0 cs (log ++ [(j, u, x)]) (s', out ++ map (pair j) [], replace_nth j ts t').
Proof.
  intros ((S1 & S2 & S3) & I1 & I2 & I3 & I4 & I5 & I7 & I6) C T E NL RP Q2 Q3 G K X OWN. cbn [map]. rewrite app_nil_r. unfold cinv. rewrite Q2, Q3.
  split. { rewrite replay_app, S1, RP. auto. }
  split; [lia|]. split. { intros r R. rewrite K by lia. now apply I2. }
  rewrite map_app. cbn [map fst snd]. split; [|split; [|split; [|split]]].
  - apply NoDup_snoc; [exact I3|]. intros Y. apply in_map_iff in Y. destruct Y as ([[k v] y] & Y1 & Y2). cbn in Y1. subst k. apply NL. exists v, y. exact Y2.
  - unfold refs. rewrite flat_map_app. cbn [flat_map snd]. destruct x as [r|]; cbn [app]; [|now rewrite app_nil_r]. apply NoDup_snoc; [exact I4|].
    destruct X as (-> & _). intros Y. apply in_flat_map in Y. destruct Y as ([[k v] [y|]] & Y1 & Y2); cbn [snd] in Y2; [|contradiction]. destruct Y2 as [Y2|[]]. specialize (I5 _ _ _ Y1). cbn in I5. destruct I5 as (? & ? & ? & _ & _ & _ & Z). lia.
  - intros k v y Y. apply in_app_or in Y. destruct Y as [Y|[Y|[]]].
    + specialize (I5 _ _ _ Y). destruct y as [r|]; [|exact I5]. destruct I5 as (uid & sp & now & X1 & X2 & X3 & X4). exists uid, sp, now. split; [exact X1|]. split; [now apply named_later|]. rewrite K by lia. split; [exact X3|lia].
    + injection Y as <- <- <-. destruct x as [r|].
      * destruct X as (-> & L & uid & sp & now & -> & X2 & X3). exists uid, sp, now. split; [exact C|]. split; [now apply named_later|]. split; [exact X3|lia].
      * destruct X as (r & -> & X). exists r. auto.
  - intros k. rewrite (get_nth _ _ _ _ _ T). destruct (Nat.eqb_spec k j) as [->|]; [|apply I7]. rewrite C. split; discriminate.
  - intros k d v KK. rewrite (get_nth _ _ _ _ _ T). destruct (Nat.eqb_spec k j) as [->|NEQ].
    + intros Y. injection Y as <-. assert (d = c) as -> by congruence. split; [|exact OWN]. pose proof (belongs_step cf s c t (proj1 (I6 _ _ _ C T))) as B. rewrite E in B. exact B.
    + intros Y. destruct (I6 k d v KK Y) as [B2 P4]. split; [exact B2|]. eapply cphase_other; [exact NEQ|reflexivity|exact P4].
Qed.

Lemma cinv_go cf s0 cs log w j : about s0 cs -> cinv cf s0 cs log w -> exists log', cinv cf s0 cs log' (go cf w j).
Proof.
  intros AB. destruct w as [[s out] ts]. intros INV. cbn [go]. destruct (nth_error ts j) as [t|] eqn:T; [|exists log; exact INV].
  assert (INV' := INV). destruct INV' as ((S1 & _) & I1 & I2 & I3 & I4 & I5 & I7 & I6).
  destruct (nth_error cs j) as [c|] eqn:C; [|now rewrite (proj2 (I7 j) C) in T]. destruct (I6 j c t C T) as [B P].
  destruct (match t with Named _ _ | Begun (KDelete _) => true | _ => false end) eqn:NM.
  - destruct t as [[uid sp now|r a st|r]|u sp|r i old new|r i old|n|x]; try discriminate; cbn [belongs] in B.
    + subst c. cbn [cphase] in P. destruct P as [P1 P2].
      assert (R : (r < List.length (sys_heap s0))%nat) by exact (AB _ (nth_error_In _ _ C)). destruct (I2 r R) as [U _].
      destruct (dget (sys_store s) (e_uid (obj s r))) as [y|] eqn:G.
      * assert (E : tstep cf s (Begun (KDelete r)) = (with_store s (drem (sys_store s) (e_uid (obj s r))), [], Ready (NDeleted (e_uid (obj s r))))) by (cbn [tstep]; unfold ddel; now rewrite G).
        rewrite E. exists (log ++ [(j, e_uid (obj s r), None)]).
        apply (cinv_entry cf s0 cs log s out ts j _ _ _ _ (e_uid (obj s r)) None INV C T E P1); auto.
        -- cbn [replay]. now rewrite G.
        -- exists r. auto.
        -- cbn [cphase]. rewrite U. split; [exact P2|]. split; [reflexivity|]. apply in_or_app. right. now left.
      * assert (E : tstep cf s (Begun (KDelete r)) = (s, [], Ended (Raise KeyError))) by (cbn [tstep]; unfold ddel; now rewrite G).
        rewrite E. exists log. apply (cinv_quiet cf s0 cs log s out ts j _ _ _ _ _ INV C T E); auto. cbn [cphase]. right. rewrite app_nil_r. repeat split; auto.
        apply (at_some_now _ _ _ _ S1). congruence.
    + destruct B as (uid & now & ->). cbn [cphase] in P. destruct P as (P1 & P2 & P3). destruct (new_event u sp) as [e|x|] eqn:NE.
      * assert (E : tstep cf s (Named u sp) = (mkSys (sys_heap s ++ [e]) (dset (sys_store s) u (List.length (sys_heap s))) (sys_source s) (sys_cals s), [], Ready (NCreated u))) by (cbn [tstep]; now rewrite NE).
        rewrite E. exists (log ++ [(j, u, Some (List.length (sys_heap s)))]).
        apply (cinv_entry cf s0 cs log s out ts j _ _ _ _ u (Some (List.length (sys_heap s))) INV C T E P1); auto.
        -- cbn [sys_heap]. rewrite app_length. lia.
        -- intros k L. now rewrite obj_push.
        -- split; [reflexivity|]. cbn [sys_heap]. rewrite app_length. cbn [List.length]. split; [lia|]. exists uid, sp, now. split; [reflexivity|]. split; [exact P3|].
           unfold obj. cbn [sys_heap]. now rewrite nth_middle.
        -- cbn [cphase]. split; [exact P2|]. exists u, (List.length (sys_heap s)). split; [reflexivity|]. apply in_or_app. right. now left.
      * assert (E : tstep cf s (Named u sp) = (s, [], Ended (Raise x))) by (cbn [tstep]; now rewrite NE).
        rewrite E. exists log. apply (cinv_quiet cf s0 cs log s out ts j _ _ _ _ _ INV C T E); auto. cbn [cphase]. right. rewrite app_nil_r. split; [discriminate|]. repeat split; auto. exists u. split; [exact P3|]. now rewrite NE.
      * assert (E : tstep cf s (Named u sp) = (s, [], Ended OutOfFuel)) by (cbn [tstep]; now rewrite NE).
        rewrite E. exists log. apply (cinv_quiet cf s0 cs log s out ts j _ _ _ _ _ INV C T E); auto. cbn [cphase]. right. rewrite app_nil_r. split; [discriminate|]. repeat split; auto. exists u. split; [exact P3|]. now rewrite NE.
  - exists log. destruct (turn_quiet cf s c t (List.length (sys_heap s0)) B) as (Q1 & Q2 & Q3 & Q4 & Q5).
    { intros r a st ->. exact (AB _ (nth_error_In _ _ C)). }
    { destruct t as [[| |]| | | | |]; auto; discriminate. }
    destruct (tstep cf s t) as [[s' n] t'] eqn:E. cbn [fst] in Q1, Q2, Q3, Q4, Q5. eapply cinv_quiet; try eassumption.
    destruct c as [uid sp now|r a st|r]; [|exact P|].
    + destruct t as [c'|u sp'|r i old new|r i old|m|x]; cbn [belongs] in B; try discriminate.
      * subst c'. cbn [tstep] in E. injection E as <- <- <-. cbn [cphase] in *. destruct P as [P1 P2]. rewrite app_nil_r. repeat split; auto. destruct uid; cbn [named]; [reflexivity|]. now apply (at_some_now _ _ _ _ S1).
      * cbn [tstep] in E. injection E as <- <- <-. cbn [cphase] in *. destruct P as (-> & u & r & -> & P). left. split; [reflexivity|]. exists u, r. auto.
      * cbn [tstep] in E. injection E as <- <- <-. rewrite app_nil_r. exact P.
    + destruct t as [c'|u sp'|r' i old new|r' i old|m|x]; cbn [belongs] in B; try discriminate.
      * subst c'. discriminate.
      * cbn [tstep] in E. injection E as <- <- <-. cbn [cphase] in *. destruct P as (-> & -> & P). left. auto.
      * cbn [tstep] in E. injection E as <- <- <-. rewrite app_nil_r. exact P.
Qed.

Lemma cinv_turns cf s0 cs sched : reachable cf s0 -> about s0 cs -> exists log, cinv cf s0 cs log (take_turns cf (start s0 cs) sched).
Proof.
  intros RE AB. unfold take_turns. assert (X : exists log, cinv cf s0 cs log (start s0 cs)).
  { exists []. unfold start, cinv. split; [auto|]. split; [lia|]. split; [intros r _; split; [reflexivity|now apply (reachable_dicts_ok cf)]|]. split; [constructor|]. split; [constructor|]. split; [intros j u r []|]. split.
    - intros j. rewrite nth_error_map. destruct (nth_error cs j); cbn; split; congruence.
    - intros j c t C. rewrite nth_error_map, C. cbn. intros X. injection X as <-. split; [reflexivity|]. assert (N : ~ in_log j []) by (intros (? & ? & [])). destruct c; cbn [cphase]; auto. }
  revert X. generalize (start s0 cs). induction sched as [|j sched IH]; intros w W; [exact W|]. cbn [fold_left]. apply IH. destruct W as [log W]. now apply (cinv_go cf s0 cs log).
Qed.

(** Whatever the order of the actions, and whatever else the other threads do: there is one
    order of the entries and deletions that explains the dictionary of events.  Each call has
    a part in it at most once; each entered object is the new event made from the call's
    arguments, under the id of the call, and nobody touched it; a deletion is of the id of
    the event given.  A createEvent or deleteEvent that returned has done its part and
    announced just that; one that raised has done neither, and a deleteEvent raises KeyError
    only if the id was not stored at some moment *)
Theorem C168_events : forall cf s cs sched, reachable cf s -> about s cs ->
  let w := take_turns cf (start s cs) sched in
  exists log,
    replay (sys_store s) log = Some (sys_store (w_sys w)) /\ sys_source (w_sys w) = sys_source s /\ sys_cals (w_sys w) = sys_cals s
    /\ NoDup (map (fun p => fst (fst p)) log) /\ NoDup (refs log)
    /\ (forall j u x, In (j, u, x) log ->
          match x with
          | Some r => exists uid sp now, nth_error cs j = Some (KCreate uid sp now) /\ named cf (sys_store s) log uid now u
              /\ new_event u sp = Ok (obj (w_sys w) r) /\ (List.length (sys_heap s) <= r < List.length (sys_heap (w_sys w)))%nat
          | None => exists r, nth_error cs j = Some (KDelete r) /\ u = e_uid (obj s r)
          end)
    /\ (forall j uid sp now x, nth_error cs j = Some (KCreate uid sp now) -> nth_error (w_threads w) j = Some (Ended x) ->
          (x = Ok tt /\ exists u r, In (j, u, Some r) log /\ said j (w_out w) = [NCreated u])
          \/ (x <> Ok tt /\ (forall u y, ~ In (j, u, y) log) /\ said j (w_out w) = []
              /\ exists u, named cf (sys_store s) log uid now u /\ rbind (new_event u sp) (fun _ => Ok tt) = x))
    /\ forall j r x, nth_error cs j = Some (KDelete r) -> nth_error (w_threads w) j = Some (Ended x) ->
          let u := e_uid (obj s r) in
          (x = Ok tt /\ In (j, u, None) log /\ said j (w_out w) = [NDeleted u])
          \/ (x = Raise KeyError /\ (forall v y, ~ In (j, v, y) log) /\ said j (w_out w) = [] /\ at_some (sys_store s) log (fun d => dget d u = None)).
Proof.
  intros cf s cs sched RE AB. cbv zeta. destruct (cinv_turns cf s cs sched RE AB) as [log I]. exists log.
  destruct (take_turns cf (start s cs) sched) as [[s' out] ts]. unfold w_sys, w_out, w_threads. cbn [fst snd]. destruct I as ((S1 & S2 & S3) & _ & _ & I3 & I4 & I5 & _ & I6).
  do 6 (split; [assumption|]). split.
  - intros j uid sp now x C T. destruct (I6 _ _ _ C T) as [_ P]. cbn [cphase] in P. destruct P as [P|(P1 & P2 & P3 & P4)]; [left; exact P|right].
    split; [exact P1|]. split; [|split; [exact P3|exact P4]]. intros u r X. apply P2. exists u, r. exact X.
  - intros j r x C T. destruct (I6 _ _ _ C T) as [_ P]. cbn [cphase] in P. destruct P as [P|(P1 & P2 & P3 & P4)]; [left; exact P|right].
    split; [exact P1|]. split; [|split; [exact P3|exact P4]]. intros u y X. apply P2. exists u, y. exact X.
Qed.

Lemma replay_get log : forall d d', NoDup (dkeys d) -> replay d log = Some d' ->
  NoDup (dkeys d') /\ forall u, dget d' u = match find (fun p => String.eqb (snd (fst p)) u) (rev log) with Some p => snd p | None => dget d u end.
Proof.
  induction log as [|[[j v] x] log IH] using rev_ind; intros d d' N; [cbn; intros R; injection R as <-; auto|]. rewrite replay_app. destruct (replay d log) as [d1|] eqn:R; [|discriminate].
  destruct (IH d d1 N R) as [N1 G]. rewrite rev_app_distr. cbn [rev app]. destruct x as [r|]; cbn [replay].
  - intros E. injection E as <-. split; [now apply dset_nodup|]. intros u. cbn [find fst snd]. rewrite dget_dset, (String.eqb_sym u v). destruct (String.eqb v u); [reflexivity|apply G].
  - destruct (dget d1 v); [|discriminate]. intros E. injection E as <-. split; [now apply drem_nodup|]. intros u. cbn [find fst snd]. rewrite dget_drem by exact N1. rewrite (String.eqb_sym u v). destruct (String.eqb v u); [reflexivity|apply G].
Qed.

Lemma replay_find d d' log u : NoDup (dkeys d) -> replay d log = Some d' ->
  (exists k x, In (k, u, x) log /\ dget d' u = x) \/ ((forall k x, ~ In (k, u, x) log) /\ dget d' u = dget d u).
Proof.
  intros N R. destruct (replay_get log d d' N R) as [_ G]. rewrite (G u). destruct (find (fun p => String.eqb (snd (fst p)) u) (rev log)) as [[[k v] x]|] eqn:F.
  - left. apply find_some in F. destruct F as [F1 F2]. apply in_rev in F1. cbn [fst snd] in *. apply String.eqb_eq in F2. subst v. exists k, x. auto.
  - right. split; [|reflexivity]. intros k x I. apply in_rev in I. apply (find_none _ _ F) in I. cbn [fst snd] in I. now rewrite String.eqb_refl in I.
Qed.

(** an id that was announced leads to the event of a call with that id, if nobody deletes
    events of that id *)
Theorem C168_one_wins : forall cf s cs sched j uid sp now, reachable cf s -> about s cs -> nth_error cs j = Some (KCreate uid sp now) ->
  let w := take_turns cf (start s cs) sched in
  nth_error (w_threads w) j = Some (Ended (Ok tt)) ->
  exists u, said j (w_out w) = [NCreated u]
    /\ ((forall r, In (KDelete r) cs -> e_uid (obj s r) <> u) ->
        exists k uid' sp' now' r, nth_error cs k = Some (KCreate uid' sp' now') /\ (uid' = None \/ uid' = Some u)
          /\ dget (sys_store (w_sys w)) u = Some r /\ new_event u sp' = Ok (obj (w_sys w) r)).
Proof.
  intros cf s cs sched j uid sp now RE AB C w T. destruct (C168_events cf s cs sched RE AB) as (log & L1 & _ & _ & _ & _ & L5 & L6 & _). fold w in L1, L5, L6.
  destruct (L6 _ _ _ _ _ C T) as [(_ & u & r & I & SA)|(X & _)]; [|congruence]. exists u. split; [exact SA|]. intros ND.
  destruct (replay_find _ _ _ u (proj1 (reachable_store cf s RE)) L1) as [(k & x & K & G)|[N _]]; [|now apply N in I].
  specialize (L5 _ _ _ K). destruct x as [y|].
  - destruct L5 as (uid' & sp' & now' & A1 & A2 & A3 & _). exists k, uid', sp', now', y. split; [exact A1|]. split; [|auto]. destruct uid'; [right; cbn in A2; congruence|now left].
  - destruct L5 as (y & A1 & A2). exfalso. apply (ND y); [eapply nth_error_In; eassumption|congruence].
Qed.

Lemma log_same (log : list done) j u r v x : NoDup (map (fun p => fst (fst p)) log) -> In (j, u, r) log -> In (j, v, x) log -> u = v /\ r = x.
Proof.
  induction log as [|[[k w] y] log IH]; [intros _ []|]. cbn [map fst]. intros N. inversion N as [|? ? X Y]; subst. intros [A|A] [B|B].
  - injection A as -> -> ->. injection B as -> ->. auto.
  - injection A as -> -> ->. exfalso. apply X. apply in_map_iff. exists (j, v, x). auto.
  - injection B as -> -> ->. exfalso. apply X. apply in_map_iff. exists (j, u, r). auto.
  - now apply IH.
Qed.

(** once all calls are over: an event that was announced, under an id that nobody else announced
    as new or deleted, is stored under it; an id announced as deleted and not as new is not
    stored; under all other ids is what was there before.  Missing: equal ids *)
Theorem C168_no_loss_partial : forall cf s cs sched, reachable cf s -> about s cs ->
  let w := take_turns cf (start s cs) sched in
  let new u := exists j, In (NCreated u) (said j (w_out w)) in
  let gone u := exists j, In (NDeleted u) (said j (w_out w)) in
  (forall j t, nth_error (w_threads w) j = Some t -> exists x, t = Ended x) ->
  (forall j uid sp now, nth_error cs j = Some (KCreate uid sp now) -> nth_error (w_threads w) j = Some (Ended (Ok tt)) ->
     exists u, said j (w_out w) = [NCreated u]
       /\ ((forall k, In (NCreated u) (said k (w_out w)) -> k = j) -> ~ gone u ->
           exists r, dget (sys_store (w_sys w)) u = Some r /\ new_event u sp = Ok (obj (w_sys w) r)))
  /\ (forall j r, nth_error cs j = Some (KDelete r) -> nth_error (w_threads w) j = Some (Ended (Ok tt)) ->
      let u := e_uid (obj s r) in said j (w_out w) = [NDeleted u] /\ (~ new u -> dget (sys_store (w_sys w)) u = None))
  /\ (forall v, ~ gone v -> ~ new v -> dget (sys_store (w_sys w)) v = dget (sys_store s) v).
Proof.
  intros cf s cs sched RE AB w new gone EN. destruct (C168_events cf s cs sched RE AB) as (log & L1 & _ & _ & L3 & _ & L5 & L6 & L7). fold w in L1, L5, L6, L7.
  destruct (cinv_turns cf s cs sched RE AB) as [log' I']. fold w in I'.
  assert (LN : forall j, nth_error (w_threads w) j = None <-> nth_error cs j = None).
  { destruct w as [[s' out] ts]. exact (proj1 (proj2 (proj2 (proj2 (proj2 (proj2 (proj2 I'))))))). }
  assert (AN : forall j u x, In (j, u, x) log -> In (match x with Some _ => NCreated u | None => NDeleted u end) (said j (w_out w))).
  { intros j u x I. pose proof (L5 _ _ _ I) as H. destruct x as [r|].
    - destruct H as (uid & sp & now & C & _). destruct (nth_error (w_threads w) j) as [t|] eqn:T; [|apply LN in T; congruence].
      destruct (EN j t T) as [x ->]. destruct (L6 _ _ _ _ _ C T) as [(_ & u' & r' & I2 & SA)|(_ & N & _)]; [|now apply N in I].
      destruct (log_same log j u (Some r) u' (Some r') L3 I I2) as [<- _]. rewrite SA. now left.
    - destruct H as (r & C & ->). destruct (nth_error (w_threads w) j) as [t|] eqn:T; [|apply LN in T; congruence].
      destruct (EN j t T) as [x ->]. destruct (L7 _ _ _ C T) as [(_ & _ & SA)|(_ & N & _)]; [|now apply N in I]. rewrite SA. now left. }
  assert (FI := fun u => replay_find _ _ _ u (proj1 (reachable_store cf s RE)) L1). split; [|split].
  - intros j uid sp now C T. destruct (L6 _ _ _ _ _ C T) as [(_ & u & r & I & SA)|(X & _)]; [|congruence]. exists u. split; [exact SA|]. intros ON NG.
    destruct (FI u) as [(k & x & K & G)|[N _]]; [|now apply N in I]. destruct x as [y|]; [|exfalso; apply NG; exists k; exact (AN _ _ _ K)].
    pose proof (ON k (AN _ _ _ K)). subst k. destruct (log_same log j u (Some r) u (Some y) L3 I K) as [_ X]. injection X as <-. exists r. split; [exact G|].
    destruct (L5 _ _ _ I) as (uid' & sp' & now' & C' & _ & E & _). assert (sp' = sp) as -> by congruence. exact E.
  - intros j r C T. destruct (L7 _ _ _ C T) as [(_ & I & SA)|(X & _)]; [|discriminate]. cbv zeta. split; [exact SA|]. intros NN.
    destruct (FI (e_uid (obj s r))) as [(k & x & K & G)|[N _]]; [|now apply N in I]. destruct x as [y|]; [exfalso; apply NN; exists k; exact (AN _ _ _ K)|exact G].
  - intros v NG NN. destruct (FI v) as [(k & x & K & G)|[_ G]]; [|exact G]. exfalso. pose proof (AN _ _ _ K). destruct x; [apply NN|apply NG]; now exists k.
Qed.

Lemma gone_stays u log : forall d, NoDup (dkeys d) -> dget d u = None -> (forall k r, ~ In (k, u, Some r) log) -> replay d log <> None -> forall k, ~ In (k, u, None) log.
Proof.
  induction log as [|[[j v] x] log IH]; intros d N G NC R k; [intros []|]. assert (NC' : forall k r, ~ In (k, u, Some r) log) by (intros k' r X; apply (NC k' r); now right).
  destruct x as [r|]; cbn [replay] in R.
  - assert (E : u <> v) by (intros ->; apply (NC j r); now left). intros [X|X]; [discriminate|]. revert X. apply (IH (dset d v r)); auto; [now apply dset_nodup|]. rewrite dget_dset. now rewrite (proj2 (String.eqb_neq u v) E).
  - destruct (dget d v) eqn:V; [|congruence]. intros [X|X]; [congruence|]. revert X. apply (IH (drem d v)); auto; [now apply drem_nodup|]. rewrite dget_drem by exact N. now destruct (String.eqb u v).
Qed.
Lemma gone_once u log : forall d, NoDup (dkeys d) -> (forall k r, ~ In (k, u, Some r) log) -> replay d log <> None -> forall j k, In (j, u, None) log -> In (k, u, None) log -> j = k.
Proof.
  induction log as [|[[l v] x] log IH]; intros d N NC R j k; [intros []|]. assert (NC' : forall k r, ~ In (k, u, Some r) log) by (intros k' r X; apply (NC k' r); now right).
  destruct x as [r|]; cbn [replay] in R.
  - intros [X|X] [Y|Y]; try discriminate. apply (IH (dset d v r)); auto. now apply dset_nodup.
  - destruct (dget d v) eqn:V; [|congruence]. assert (N' : NoDup (dkeys (drem d v))) by now apply drem_nodup.
    assert (S : u = v -> forall k, ~ In (k, u, None) log). { intros ->. apply (gone_stays v log (drem d v)); auto. rewrite dget_drem by exact N. now rewrite String.eqb_refl. }
    intros [X|X] [Y|Y].
    + congruence.
    + injection X as -> ->. exfalso. exact (S eq_refl _ Y).
    + injection Y as -> ->. exfalso. exact (S eq_refl _ X).
    + now apply (IH (drem d v)).
Qed.

(** of several deleteEvents of the same id at most one returns, if nobody creates an event of
    that id meanwhile *)
Theorem C168_deleted_once : forall cf s cs sched j k r r', reachable cf s -> about s cs -> nth_error cs j = Some (KDelete r) -> nth_error cs k = Some (KDelete r') ->
  e_uid (obj s r) = e_uid (obj s r') ->
  (forall uid sp now, In (KCreate uid sp now) cs -> exists v, uid = Some v /\ v <> e_uid (obj s r)) ->
  let w := take_turns cf (start s cs) sched in
  nth_error (w_threads w) j = Some (Ended (Ok tt)) -> nth_error (w_threads w) k = Some (Ended (Ok tt)) -> j = k.
Proof.
  intros cf s cs sched j k r r' RE AB J K U NC w TJ TK. destruct (C168_events cf s cs sched RE AB) as (log & L1 & _ & _ & _ & _ & L5 & _ & L7). fold w in L1, L5, L7.
  destruct (L7 _ _ _ J TJ) as [(_ & IJ & _)|(X & _)]; [|discriminate]. destruct (L7 _ _ _ K TK) as [(_ & IK & _)|(X & _)]; [|discriminate]. rewrite <- U in IK.
  apply (gone_once (e_uid (obj s r)) log (sys_store s)); auto; [apply (reachable_store cf s RE)| |congruence].
  intros l y I. destruct (L5 _ _ _ I) as (uid & sp & now & C & NA & _). destruct (NC uid sp now (nth_error_In _ _ C)) as (v & -> & NE). cbn [named] in NA. congruence.
Qed.

(** ** The same answer *)
(** before thread [j] the status was [old]: the earlier one, or one that another call sets *)
Definition seen (s0 : system) (cs : list call) (r : nat) (i : string) (j : nat) (old : option string) : Prop :=
  old = dget (e_state (obj s0 r)) i \/ exists k v, k <> j /\ nth_error cs k = Some (KStatus r (Some i) (Some v)) /\ old = Some v.
(** the announcement of a call that sets [v] *)
Definition told (s0 : system) (cs : list call) (r : nat) (i : string) (j : nat) (v : string) (n : notification) : Prop :=
  exists old, seen s0 cs r i j old /\ old <> Some v /\ n = NParticipation (e_uid (obj s0 r)) i old (Some v).
Definition aphase (s0 : system) (cs : list call) (r : nat) (i : string) (j : nat) (c : call) (t : thread) (o : list notification) : Prop :=
  forall v, c = KStatus r (Some i) (Some v) ->
  match t with
  | Begun _ => o = []
  | Asked _ _ old _ => o = [] /\ seen s0 cs r i j old /\ old <> Some v
  | Ready n => o = [] /\ told s0 cs r i j v n
  | Ended x => x = Ok tt /\ ((o = [] /\ seen s0 cs r i j (Some v)) \/ exists n, told s0 cs r i j v n /\ o = [n])
  | _ => False
  end.
Definition wrote (t : thread) (o : list notification) : Prop := match t with Ready _ => True | Ended _ => o <> [] | _ => False end.
Definition ainv (s0 : system) (cs : list call) (r : nat) (i : string) (w : running) : Prop :=
  let '(s, out, ts) := w in
  ((r < List.length (sys_heap s))%nat /\ e_uid (obj s r) = e_uid (obj s0 r) /\ dicts_ok (obj s r))
  /\ (forall j, nth_error ts j = None <-> nth_error cs j = None)
  /\ (forall j c t, nth_error cs j = Some c -> nth_error ts j = Some t -> belongs c t /\ aphase s0 cs r i j c t (said j out))
  /\ dget (e_role (obj s r)) i = dget (e_role (obj s0 r)) i
  /\ ((dget (e_state (obj s r)) i = dget (e_state (obj s0 r)) i
         /\ forall k v t, nth_error cs k = Some (KStatus r (Some i) (Some v)) -> nth_error ts k = Some t -> ~ wrote t (said k out))
      \/ exists k v t, nth_error cs k = Some (KStatus r (Some i) (Some v)) /\ nth_error ts k = Some t /\ wrote t (said k out) /\ dget (e_state (obj s r)) i = Some v).

Lemma wrote_step cf s t o : wrote t o -> wrote (snd (tstep cf s t)) (o ++ snd (fst (tstep cf s t))).
Proof.
  destruct t as [[uid sp now|r a st|r]|u sp|r i old new|r i old|n|x]; cbn [wrote]; try contradiction; cbn [tstep fst snd wrote].
  - intros _ X. now apply app_eq_nil in X.
  - rewrite app_nil_r. auto.
Qed.
Lemma not_wrote_step cf s c t o r i v : c = KStatus r (Some i) (Some v) -> belongs c t -> ~ wrote t o -> (forall r' i' old v', t <> Asked r' i' old (Some v')) ->
  match t with Begun _ => o = [] | _ => True end -> ~ wrote (snd (tstep cf s t)) (o ++ snd (fst (tstep cf s t))).
Proof.
  intros -> B N A O. destruct t as [c'|u sp|r' i' old new|r' i' old|n|x]; cbn [belongs] in B; cbn [tstep].
  - subst c' o. destruct (str_in v statuses); cbn [fst snd wrote app]; [|auto]. destruct (opt_str_eqb _ _); cbn [wrote]; auto.
  - destruct B as (? & ? & ?). discriminate.
  - injection B as <- <- <-. exfalso. now apply (A r i old v).
  - injection B. discriminate.
  - exfalso. apply N. exact I.
  - cbn [fst snd wrote] in *. now rewrite app_nil_r.
Qed.

Lemma ainv_go cf s0 cs r i w j : (forall st, In (KStatus r (Some i) st) cs -> exists v, st = Some v /\ str_in v statuses = true) ->
  ainv s0 cs r i w -> ainv s0 cs r i (go cf w j).
Proof.
  intros SET. destruct w as [[s out] ts]. intros INV. cbn [go]. destruct (nth_error ts j) as [t|] eqn:T; [|exact INV].
  destruct INV as ((L & U & D) & I2 & I3 & I4 & I5).
  destruct (nth_error cs j) as [c|] eqn:C; [|now rewrite (proj2 (I2 j) C) in T]. destruct (I3 j c t C T) as [B P].
  pose proof (turn_grows cf s t) as GR. destruct (turn_frame cf s t r L D) as (U' & D' & FR). pose proof (belongs_step cf s c t B) as B'.
  assert (WR := wrote_step cf s t (said j out)). assert (NW := fun v E => not_wrote_step cf s c t (said j out) r i v E B).
  assert (LEN : forall k t', nth_error (replace_nth j ts t') k = None <-> nth_error cs k = None).
  { intros k t'. rewrite (get_nth _ _ _ _ _ T). destruct (Nat.eqb_spec k j) as [->|]; [|apply I2]. rewrite C. split; discriminate. }
  assert (SEEN : ~ wrote t (said j out) -> seen s0 cs r i j (dget (e_state (obj s r)) i)).
  { intros N. destruct I5 as [[E _]|(k & v & tk & K1 & K2 & K3 & K4)]; [left; exact E|]. right. exists k, v. split; [|auto]. intros ->. rewrite T in K2. injection K2 as <-. contradiction. }
  assert (OWN : aphase s0 cs r i j c (snd (tstep cf s t)) (said j out ++ snd (fst (tstep cf s t)))).
  { intros v ->. specialize (P v eq_refl). destruct (SET (Some v)) as (v' & V & VS); [eapply nth_error_In; eassumption|]. injection V as <-.
    destruct t as [c'|u sp|r' i' old new|r' i' old|n|x]; cbn [belongs] in B; cbn [tstep]; try contradiction.
    - subst c'. rewrite VS. cbn [fst snd]. rewrite app_nil_r. destruct (opt_str_eqb _ _) eqn:Q.
      + apply opt_str_eqb_eq in Q. split; [reflexivity|]. left. split; [exact P|]. rewrite <- Q. apply SEEN. intros [].
      + split; [exact P|]. split; [apply SEEN; intros []|]. intros X. rewrite X in Q. now rewrite (proj2 (opt_str_eqb_eq (Some v) (Some v)) eq_refl) in Q.
    - injection B as <- <- <-. cbn [fst snd]. rewrite app_nil_r. destruct P as (P1 & P2 & P3). split; [exact P1|]. exists old. rewrite U. auto.
    - cbn [fst snd]. destruct P as (-> & P). split; [reflexivity|]. right. exists n. auto.
    - cbn [fst snd]. rewrite app_nil_r. exact P. }
  destruct (tstep cf s t) as [[s' n] t'] eqn:E. cbn [fst snd] in *. unfold ainv. split; [split; [lia|split; [congruence|exact D']]|]. split; [intros k; apply LEN|]. split; [|].
  { intros k d v K. rewrite (get_nth _ _ _ _ _ T), said_app, said_pair, (Nat.eqb_sym j k). destruct (Nat.eqb_spec k j) as [->|NE].
    - intros X. injection X as <-. assert (d = c) as -> by congruence. auto.
    - intros X. rewrite app_nil_r. now apply I3. }
  assert (KEEP : cell s' r i = cell s r i -> dget (e_role (obj s' r)) i = dget (e_role (obj s0 r)) i /\ dget (e_state (obj s' r)) i = dget (e_state (obj s r)) i).
  { unfold cell. intros X. injection X as X1 X2. split; congruence. }
  destruct (match t with Asked r' i' _ (Some _) => Nat.eqb r' r && String.eqb i' i | _ => false end) eqn:M.
  - destruct t as [c'|u sp|r' i' old [v|]|r' i' old|m|x]; try discriminate. apply Bool.andb_true_iff in M. destruct M as [M1 M2]. apply Nat.eqb_eq in M1. apply String.eqb_eq in M2. subst r' i'.
    cbn [belongs] in B. subst c. cbn [tstep] in E. injection E as <- <- <-. rewrite obj_put by exact L. rewrite Nat.eqb_refl. cbn [e_role e_state with_state]. split; [exact I4|].
    right. exists j, v, (Ready (NParticipation (e_uid (obj s r)) i old (Some v))). split; [exact C|]. split; [rewrite (get_nth _ _ _ _ _ T); now rewrite Nat.eqb_refl|]. split; [exact I|]. now rewrite dget_dset, String.eqb_refl.
  - assert (SAME : cell s' r i = cell s r i).
    { apply FR. destruct t as [c'|u sp|r' i' old [v|]|r' i' old|m|x]; auto; cbn [belongs] in B.
      - intros X. injection X as -> ->. now rewrite Nat.eqb_refl, String.eqb_refl in M.
      - intros X. injection X as -> ->. subst c. destruct (SET None) as (? & ? & _); [eapply nth_error_In; eassumption|discriminate].
      - intros X. injection X as -> ->. subst c. destruct (SET None) as (? & ? & _); [eapply nth_error_In; eassumption|discriminate]. }
    destruct (KEEP SAME) as [K1 K2]. split; [exact K1|]. rewrite K2. destruct I5 as [[E1 E2]|(k & v & tk & X1 & X2 & X3 & X4)].
    + left. split; [exact E1|]. intros k v tk K. rewrite (get_nth _ _ _ _ _ T), said_app, said_pair, (Nat.eqb_sym j k). destruct (Nat.eqb_spec k j) as [->|NE].
      * intros X. injection X as <-. assert (c = KStatus r (Some i) (Some v)) as -> by congruence. apply (NW v eq_refl).
        -- eapply E2; eassumption.
        -- intros r' i' old v' ->. cbn [belongs] in B. injection B as -> -> _. now rewrite Nat.eqb_refl, String.eqb_refl in M.
        -- specialize (P v eq_refl). destruct t; auto.
      * intros X. rewrite app_nil_r. eapply E2; eassumption.
    + right. exists k, v. rewrite said_app, said_pair, (Nat.eqb_sym j k). destruct (Nat.eqb_spec k j) as [->|NE].
      * exists t'. split; [exact X1|]. split; [rewrite (get_nth _ _ _ _ _ T); now rewrite Nat.eqb_refl|]. split; [|exact X4]. apply WR. congruence.
      * exists tk. split; [exact X1|]. split; [rewrite (get_nth _ _ _ _ _ T); rewrite (proj2 (Nat.eqb_neq _ _) NE); exact X2|]. split; [now rewrite app_nil_r|exact X4].
Qed.

Lemma ainv_turns cf s0 cs sched r i : reachable cf s0 -> (r < List.length (sys_heap s0))%nat ->
  (forall st, In (KStatus r (Some i) st) cs -> exists v, st = Some v /\ str_in v statuses = true) -> ainv s0 cs r i (take_turns cf (start s0 cs) sched).
Proof.
  intros RE L SET. unfold take_turns. assert (X : ainv s0 cs r i (start s0 cs)).
  { unfold start, ainv. split; [split; [exact L|split; [reflexivity|now apply (reachable_dicts_ok cf)]]|]. split.
    { intros j. rewrite nth_error_map. destruct (nth_error cs j); cbn; split; congruence. }
    split. { intros j c t C. rewrite nth_error_map, C. cbn. intros X. injection X as <-. split; [reflexivity|]. intros v _. reflexivity. }
    split; [reflexivity|]. left. split; [reflexivity|]. intros k v t K. rewrite nth_error_map, K. cbn. intros X. injection X as <-. intros []. }
  revert X. generalize (start s0 cs). induction sched as [|j sched IH]; intros w W; [exact W|]. cbn [fold_left]. apply IH. now apply ainv_go.
Qed.

(** Calls that give the same person's answer on the same event, none of them a removal: each
    returns; it announces one change, to its status from another one that the answer had, or
    nothing if the answer had its status already.  Once all are over, the answer is that of
    a call that announced it, or the earlier one if no call announced anything.  The role
    stays *)
Theorem C168_same_answer : forall cf s cs sched r i, reachable cf s -> (r < List.length (sys_heap s))%nat ->
  (forall st, In (KStatus r (Some i) st) cs -> exists v, st = Some v /\ str_in v statuses = true) ->
  let w := take_turns cf (start s cs) sched in
  (forall j v x, nth_error cs j = Some (KStatus r (Some i) (Some v)) -> nth_error (w_threads w) j = Some (Ended x) ->
     x = Ok tt /\ ((said j (w_out w) = [] /\ seen s cs r i j (Some v)) \/ exists n, told s cs r i j v n /\ said j (w_out w) = [n]))
  /\ dget (e_role (obj (w_sys w) r)) i = dget (e_role (obj s r)) i
  /\ ((forall j t, nth_error (w_threads w) j = Some t -> exists x, t = Ended x) ->
      (dget (e_state (obj (w_sys w) r)) i = dget (e_state (obj s r)) i
       /\ forall j v, nth_error cs j = Some (KStatus r (Some i) (Some v)) -> said j (w_out w) = [])
      \/ exists j v n, nth_error cs j = Some (KStatus r (Some i) (Some v)) /\ said j (w_out w) = [n] /\ told s cs r i j v n
           /\ dget (e_state (obj (w_sys w) r)) i = Some v).
Proof.
  intros cf s cs sched r i RE L SET. cbv zeta. pose proof (ainv_turns cf s cs sched r i RE L SET) as I. destruct (take_turns cf (start s cs) sched) as [[s' out] ts].
  unfold w_threads, w_out, w_sys. cbn [fst snd]. destruct I as (_ & I2 & I3 & I4 & I5). split; [|split; [exact I4|]].
  - intros j v x C T. exact (proj2 (I3 _ _ _ C T) v eq_refl).
  - intros EN. destruct I5 as [[E N]|(k & v & t & K1 & K2 & K3 & K4)].
    + left. split; [exact E|]. intros j v C. destruct (nth_error ts j) as [t|] eqn:T; [|apply I2 in T; congruence]. destruct (EN j t T) as [x ->]. specialize (N j v _ C T). cbn [wrote] in N.
      destruct (said j out); [reflexivity|]. exfalso. apply N. discriminate.
    + right. destruct (EN k t K2) as [x ->]. cbn [wrote] in K3. destruct (proj2 (I3 _ _ _ K1 K2) v eq_refl) as [_ [[X _]|(n & X & Y)]]; [contradiction|]. exists k, v, n. auto.
Qed.

(** ** What goes wrong *)
(** Two createEvents without an id in the same second that both count the stored events before
    either enters its own: both return and announce the same id, and the first event is in the
    storage no more *)
Theorem C168_lost_refuted : forall cf s sp sp' now e e', reachable cf s ->
  let u := generated_id cf now (List.length (sys_store s)) in
  new_event u sp = Ok e -> new_event u sp' = Ok e' ->
  let w := take_turns cf (start s [KCreate None sp now; KCreate None sp' now]) [0; 1; 0; 1; 0; 1]%nat in
  w_threads w = [Ended (Ok tt); Ended (Ok tt)] /\ w_out w = [(0%nat, NCreated u); (1%nat, NCreated u)]
  /\ sys_heap (w_sys w) = sys_heap s ++ [e; e']
  /\ dget (sys_store (w_sys w)) u = Some (S (List.length (sys_heap s)))
  /\ forall v, dget (sys_store (w_sys w)) v <> Some (List.length (sys_heap s)).
Proof.
  intros cf s sp sp' now e e' RE u E E' w.
  assert (W : w = (mkSys (sys_heap s ++ [e; e']) (dset (dset (sys_store s) u (List.length (sys_heap s))) u (S (List.length (sys_heap s)))) (sys_source s) (sys_cals s),
                   [(0%nat, NCreated u); (1%nat, NCreated u)], [Ended (Ok tt); Ended (Ok tt)])).
  { unfold w, take_turns, start. cbn [map fold_left]. turn. fold u. rewrite E. turn. rewrite E'. turn. cbn [sys_heap sys_store sys_source sys_cals]. rewrite <- app_assoc. cbn [app].
    rewrite app_length. cbn [List.length]. now rewrite Nat.add_1_r. }
  rewrite W. unfold w_threads, w_out, w_sys. cbn [fst snd sys_heap sys_store]. repeat split.
  - now rewrite dget_dset, String.eqb_refl.
  - intros v. rewrite !dget_dset. destruct (String.eqb v u); [injection 1; lia|]. intros X.
    destruct (proj2 (reachable_store cf s RE) v _ X) as [L _]. lia.
Qed.

(** Two setParticipationStatus for the same person and event that both ask before either
    answers: both announce a change from the earlier status, and one answer is lost *)
Theorem C168_stale_refuted : forall cf s r i v v', (r < List.length (sys_heap s))%nat -> str_in v statuses = true -> str_in v' statuses = true ->
  let old := dget (e_state (obj s r)) i in
  let u := e_uid (obj s r) in
  old <> Some v -> old <> Some v' ->
  let w := take_turns cf (start s [KStatus r (Some i) (Some v); KStatus r (Some i) (Some v')]) [0; 1; 0; 1; 0; 1]%nat in
  w_threads w = [Ended (Ok tt); Ended (Ok tt)]
  /\ w_out w = [(0%nat, NParticipation u i old (Some v)); (1%nat, NParticipation u i old (Some v'))]
  /\ dget (e_state (obj (w_sys w) r)) i = Some v'.
Proof.
  intros cf s r i v v' L V V' old u N N' w.
  assert (Q : opt_str_eqb old (Some v) = false). { apply Bool.not_true_iff_false. intros X. apply N. now apply opt_str_eqb_eq. }
  assert (Q' : opt_str_eqb old (Some v') = false). { apply Bool.not_true_iff_false. intros X. apply N'. now apply opt_str_eqb_eq. }
  unfold w, take_turns, start. cbn [map fold_left]. turn. rewrite V. turn. fold old. rewrite Q. turn. rewrite V'. turn. fold old. rewrite Q'. turn.
  unfold w_threads, w_out, w_sys. cbn [fst snd]. rewrite !obj_put by (unfold put; cbn [sys_heap with_heap]; rewrite ?replace_nth_length; exact L). rewrite Nat.eqb_refl.
  cbn [e_uid with_state e_state]. rewrite dget_dset, String.eqb_refl. auto.
Qed.

(** Two removals of the same person at the same time: one raises KeyError, although one after
    the other both return *)
Theorem C168_removed_twice_refuted : forall cf s r i o role, reachable cf s -> (r < List.length (sys_heap s))%nat -> cell s r i = (Some o, Some role) ->
  let cs := [KStatus r (Some i) None; KStatus r (Some i) None] in
  w_threads (take_turns cf (start s cs) [0; 1; 0; 1; 0; 0]%nat) = [Ended (Ok tt); Ended (Raise KeyError)]
  /\ w_threads (take_turns cf (start s cs) [0; 0; 0; 0; 1; 1; 1; 1]%nat) = [Ended (Ok tt); Ended (Ok tt)].
Proof.
  intros cf s r i o role RE L C cs. unfold cell in C. injection C as C1 C2. destruct (reachable_dicts_ok cf s r RE) as [D1 D2].
  unfold cs, take_turns, start. cbn [map fold_left]. split.
  - turn. rewrite C1. cbn [opt_str_eqb]. turn. unfold ddel at 1. rewrite C1. turn. rewrite obj_put by exact L. rewrite Nat.eqb_refl. cbn [e_state with_state e_role].
    unfold ddel at 1. rewrite dget_drem by exact D1. rewrite String.eqb_refl. turn. rewrite ?obj_put by exact L. rewrite ?Nat.eqb_refl. cbn [e_state with_state e_role]. unfold ddel. rewrite C2. turn. reflexivity.
  - turn. rewrite C1. cbn [opt_str_eqb]. turn. unfold ddel at 1. rewrite C1. turn. rewrite obj_put by exact L. rewrite Nat.eqb_refl. cbn [e_state with_state e_role].
    unfold ddel. rewrite C2. turn. rewrite put_put, obj_put by exact L. rewrite Nat.eqb_refl. cbn [e_state with_state with_role]. rewrite dget_drem by exact D1. rewrite String.eqb_refl. cbn [opt_str_eqb]. turn. reflexivity.
Qed.

(** an event with ann and bob; ann accepts, bob is removed, two meetings are planned, and the
    event is deleted twice *)
Definition k_ops : list op := [OCreate (Some "m"%string) (p_spec (p_at 732502 9) (Some HOUR) false bob [(ann, "REQ-PARTICIPANT", Some "NEEDS-ACTION"); (bob, "CHAIR", Some "ACCEPTED")]%string) 0].
Definition k_state : system := run cf0 k_ops.
Definition k_meet (d : Z) : spec := p_spec (p_at d 9) (Some HOUR) false ann [].
Definition k_calls : list call :=
  [KStatus 0 ann (Some "ACCEPTED"%string); KStatus 0 bob None; KCreate (Some "n"%string) (k_meet 732503) 0; KCreate None (k_meet 732504) 0; KDelete 0; KDelete 0].
Definition k_sched : list nat := [1; 0; 2; 4; 3; 1; 0; 5; 2; 3; 1; 0; 3; 4; 2; 1; 1]%nat.
Example C168_case :
  reachable cf0 k_state /\ separate k_calls /\ about k_state k_calls
  /\ (let w := take_turns cf0 (start k_state k_calls) k_sched in
      w_threads w = [Ended (Ok tt); Ended (Ok tt); Ended (Ok tt); Ended (Ok tt); Ended (Ok tt); Ended (Raise KeyError)]
      /\ said 0 (w_out w) = [NParticipation "m" "ann" (Some "NEEDS-ACTION") (Some "ACCEPTED")]%string
      /\ said 1 (w_out w) = [NParticipation "m" "bob" (Some "ACCEPTED") None]%string
      /\ map fst (w_out w) = [0; 3; 4; 2; 1]%nat
      /\ cell (w_sys w) 0 "ann"%string = (Some "ACCEPTED", Some "REQ-PARTICIPANT")%string /\ cell (w_sys w) 0 "bob"%string = (None, None)
      /\ List.length (sys_store (w_sys w)) = 2%nat)
  /\ (exists e e', new_event (generated_id cf0 0 1) (k_meet 732503) = Ok e /\ new_event (generated_id cf0 0 1) (k_meet 732504) = Ok e' /\ e <> e')
  /\ cell k_state 0 "ann"%string = (Some "NEEDS-ACTION", Some "REQ-PARTICIPANT")%string
  /\ str_in "ACCEPTED" statuses = true /\ str_in "DECLINED" statuses = true.
Proof.
  split; [apply run_reachable|]. split.
  { vm_compute. constructor; [intros [X|[]]; discriminate|]. constructor; [intros []|constructor]. }
  split. { intros c. cbn [In k_calls]. intros [<-|[<-|[<-|[<-|[<-|[<-|[]]]]]]]; vm_compute; auto; lia. }
  split; [vm_compute; repeat split|]. split; [|vm_compute; auto].
  destruct (new_event (generated_id cf0 0 1) (k_meet 732503)) as [e| |] eqn:E; [|vm_compute in E; discriminate|vm_compute in E; discriminate].
  destruct (new_event (generated_id cf0 0 1) (k_meet 732504)) as [e'| |] eqn:E'; [|vm_compute in E'; discriminate|vm_compute in E'; discriminate].
  exists e, e'. repeat split. intros X. assert (Y : e_dtstart e = e_dtstart e') by now rewrite X. vm_compute in E, E'. injection E as <-. injection E' as <-. vm_compute in Y. discriminate.
Qed.

(** two answers of ann at the same time: the first to ask answers last *)
Example C168_same_case :
  let cs := [KStatus 0 ann (Some "ACCEPTED"%string); KStatus 0 ann (Some "DECLINED"%string)] in
  let w := take_turns cf0 (start k_state cs) [0; 1; 1; 1; 0; 0]%nat in
  (forall st, In (KStatus 0 (Some "ann"%string) st) cs -> exists v, st = Some v /\ str_in v statuses = true)
  /\ w_threads w = [Ended (Ok tt); Ended (Ok tt)]
  /\ w_out w = [(1%nat, NParticipation "m" "ann" (Some "NEEDS-ACTION") (Some "DECLINED")); (0%nat, NParticipation "m" "ann" (Some "NEEDS-ACTION") (Some "ACCEPTED"))]%string
  /\ cell (w_sys w) 0 "ann"%string = (Some "ACCEPTED", Some "REQ-PARTICIPANT")%string.
Proof.
  cbv zeta. split; [|vm_compute; auto]. intros st. cbn [In]. intros [X|[X|[]]]; injection X as <-; eexists; (split; [reflexivity|reflexivity]).
Qed.

Print Assumptions C168_alone.
Print Assumptions C168_ends.
Print Assumptions C168_separate_partial.
Print Assumptions C168_events.
Print Assumptions C168_one_wins.
Print Assumptions C168_no_loss_partial.
Print Assumptions C168_deleted_once.
Print Assumptions C168_same_answer.
Print Assumptions C168_lost_refuted.
Print Assumptions C168_stale_refuted.
Print Assumptions C168_removed_twice_refuted.
