(** Property theorems C168: calls that run at the same time do as if one after the other. *)
From Coq Require Import Permutation.
From Verif Require Import Base PyDate DateFacts Recurrent CalTime TimeProofs Event Storage QueryProofs EventProofs ICal System
  SpecProofs SystemProofs ImportTwice PropSystem PropEvent PropExact Threads PropThreads.

(** ** Specification *)
(** the calls of [cs] in the given order, each one as a whole; with what each announced and
    how it ended *)
Definition whole (cf : config) (cs : list call) (q : system * list (nat * (list notification * res unit))) (j : nat)
  : system * list (nat * (list notification * res unit)) :=
  match nth_error cs j with
  | Some c => let m := step cf (fst q) (op_of c) in (sst m, snd q ++ [(j, (snt m, srs m))])
  | None => q
  end.
Definition one_by_one (cf : config) (cs : list call) (s : system) (order : list nat) : system * list (nat * (list notification * res unit)) :=
  fold_left (whole cf cs) order (s, []).
(** an event without the answers *)
Definition bare (e : event) : event := with_role (with_state e []) [].
(** the same but for the order of the answers in their dictionaries *)
Definition same_state (s q : system) : Prop :=
  sys_store s = sys_store q /\ sys_source s = sys_source q /\ sys_cals s = sys_cals q /\ List.length (sys_heap s) = List.length (sys_heap q)
  /\ forall k, bare (obj s k) = bare (obj q k) /\ forall i, cell s k i = cell q k i.

(** ** Proofs *)
Lemma turn_bare cf s t k : (k < List.length (sys_heap s))%nat -> bare (obj (fst (fst (tstep cf s t))) k) = bare (obj s k).
Proof.
  intros L. destruct t as [[uid sp now|r a st|r]|u sp|r i old [v|]|r i old|n|x]; cbn [tstep]; try reflexivity.
  - destruct (match st with None => true | Some _ => _ end); [destruct a|]; reflexivity.
  - destruct (ddel _ _); reflexivity.
  - destruct (new_event u sp); cbn [fst]; try reflexivity. now rewrite obj_push.
  - cbn [fst]. destruct (Nat.lt_ge_cases r (List.length (sys_heap s))) as [R|R]; [rewrite obj_put by exact R|now rewrite obj_put_out]. destruct (Nat.eqb_spec k r) as [->|]; reflexivity.
  - destruct (ddel _ _); cbn [fst]; try reflexivity. destruct (Nat.lt_ge_cases r (List.length (sys_heap s))) as [R|R]; [rewrite obj_put by exact R|now rewrite obj_put_out]. destruct (Nat.eqb_spec k r) as [->|]; reflexivity.
  - destruct (ddel _ _); cbn [fst]; try reflexivity. destruct (Nat.lt_ge_cases r (List.length (sys_heap s))) as [R|R]; [rewrite obj_put by exact R|now rewrite obj_put_out]. destruct (Nat.eqb_spec k r) as [->|]; reflexivity.
Qed.
Lemma bare_uid e e' : bare e = bare e' -> e_uid e = e_uid e'.
Proof. intros E. change (e_uid (bare e) = e_uid (bare e')). now rewrite E. Qed.

(** the events made meanwhile, the dictionary and the old events are as after the creations and
    deletions one after the other, in the order in which they took effect *)
Definition given (c : call) : Prop := match c with KCreate None _ _ => False | _ => True end.
Definition lphase (lin : list nat) (res : list (nat * (list notification * Base.res unit))) (j : nat) (c : call) (t : thread) (o : list notification) : Prop :=
  match c with
  | KStatus _ _ _ => ~ In j lin
  | KCreate uid _ _ =>
      match t with
      | Begun _ => ~ In j lin /\ o = []
      | Named u _ => ~ In j lin /\ o = [] /\ uid = Some u
      | Ready n => In (j, ([n], Ok tt)) res /\ o = []
      | Ended x => In (j, (o, x)) res
      | _ => False
      end
  | KDelete _ =>
      match t with
      | Begun _ => ~ In j lin /\ o = []
      | Ready n => In (j, ([n], Ok tt)) res /\ o = []
      | Ended x => In (j, (o, x)) res
      | _ => False
      end
  end.
Definition linv (cf : config) (s0 : system) (cs : list call) (lin : list nat) (w : running) : Prop :=
  let '(s, out, ts) := w in
  let q := one_by_one cf cs s0 lin in
  (sys_store s = sys_store (fst q) /\ sys_source s = sys_source (fst q) /\ sys_cals s = sys_cals (fst q) /\ List.length (sys_heap s) = List.length (sys_heap (fst q)))
  /\ (List.length (sys_heap s0) <= List.length (sys_heap s))%nat
  /\ (forall k, (k < List.length (sys_heap s0))%nat -> bare (obj s k) = bare (obj s0 k) /\ obj (fst q) k = obj s0 k)
  /\ (forall k, (List.length (sys_heap s0) <= k)%nat -> obj s k = obj (fst q) k)
  /\ NoDup lin /\ map fst (snd q) = lin
  /\ (forall j, nth_error ts j = None <-> nth_error cs j = None)
  /\ forall j c t, nth_error cs j = Some c -> nth_error ts j = Some t -> belongs c t /\ lphase lin (snd q) j c t (said j out).

Lemma lphase_other lin res e j k c t o : j <> k -> fst e = k -> lphase lin res j c t o -> lphase (lin ++ [k]) (res ++ [e]) j c t o.
Proof.
  intros NE EK. assert (X : ~ In j lin -> ~ In j (lin ++ [k])). { intros N I. apply in_app_or in I. destruct I as [I|[I|[]]]; [auto|congruence]. }
  assert (Y : forall p, In p res -> In p (res ++ [e])) by (intros p I; apply in_or_app; now left).
  destruct c as [uid sp now|r a st|r]; cbn [lphase]; [|exact X|]; destruct t; auto.
  - intros [A B]. auto.
  - intros (A & B & C). auto.
  - intros [A B]. auto.
  - intros [A B]. auto.
  - intros [A B]. auto.
Qed.

Lemma linv_quiet cf s0 cs lin s out ts j c t s' n t' : linv cf s0 cs lin (s, out, ts) -> nth_error cs j = Some c -> nth_error ts j = Some t ->
  tstep cf s t = (s', n, t') -> sys_store s' = sys_store s -> sys_source s' = sys_source s -> sys_cals s' = sys_cals s -> List.length (sys_heap s') = List.length (sys_heap s) ->
  (forall k, (List.length (sys_heap s0) <= k)%nat -> obj s' k = obj s k) ->
  lphase lin (snd (one_by_one cf cs s0 lin)) j c t' (said j out ++ n) ->
  linv cf s0 cs lin (s', out ++ map (pair j) n, replace_nth j ts t').
Proof.
  intros (I0 & I1 & I2 & I3 & I4 & I5 & I7 & I6) C T E Q1 Q2 Q3 Q4 Q5 OWN. unfold linv. rewrite Q1, Q2, Q3, Q4. split; [assumption|]. split; [assumption|]. split.
  { intros k K. destruct (I2 k K) as [A1 A2]. split; [|exact A2]. rewrite <- A1. pose proof (turn_bare cf s t k ltac:(lia)) as TB. rewrite E in TB. exact TB. }
  split. { intros k K. rewrite Q5 by exact K. now apply I3. }
  split; [assumption|]. split; [assumption|]. split.
  - intros k. rewrite (get_nth _ _ _ _ _ T). destruct (Nat.eqb_spec k j) as [->|]; [|apply I7]. rewrite C. split; discriminate.
  - intros k d v K. rewrite (get_nth _ _ _ _ _ T), said_app, said_pair, (Nat.eqb_sym j k). destruct (Nat.eqb_spec k j) as [->|NE].
    + intros X. injection X as <-. assert (d = c) as -> by congruence. split; [|exact OWN]. pose proof (belongs_step cf s c t (proj1 (I6 _ _ _ C T))) as B. rewrite E in B. exact B.
    + intros X. rewrite app_nil_r. now apply I6.
Qed.

Lemma linv_entry cf s0 cs lin s out ts j c t s' t' : let q := fst (one_by_one cf cs s0 lin) in let m := step cf q (op_of c) in
  linv cf s0 cs lin (s, out, ts) -> nth_error cs j = Some c -> nth_error ts j = Some t ->
  tstep cf s t = (s', [], t') -> ~ In j lin ->
  sys_store s' = sys_store (sst m) -> sys_source s' = sys_source (sst m) -> sys_cals s' = sys_cals (sst m) -> List.length (sys_heap s') = List.length (sys_heap (sst m)) ->
  (List.length (sys_heap s) <= List.length (sys_heap s'))%nat ->
  (forall k, (k < List.length (sys_heap s0))%nat -> obj (sst m) k = obj q k) -> (forall k, (List.length (sys_heap s0) <= k)%nat -> obj s' k = obj (sst m) k) ->
  (forall res, lphase (lin ++ [j]) (res ++ [(j, (snt m, srs m))]) j c t' (said j out)) ->
  linv cf s0 cs (lin ++ [j]) (s', out ++ map (pair j) [], replace_nth j ts t').
Proof.
  intros q m (I0 & I1 & I2 & I3 & I4 & I5 & I7 & I6) C T E NL Q1 Q2 Q3 Q4 G K1 K2 OWN. cbn [map]. rewrite app_nil_r.
  assert (QQ : one_by_one cf cs s0 (lin ++ [j]) = (sst m, snd (one_by_one cf cs s0 lin) ++ [(j, (snt m, srs m))])).
  { unfold one_by_one. rewrite fold_left_app. cbn [fold_left]. unfold whole at 1. rewrite C. reflexivity. }
  unfold linv. rewrite QQ. cbn [fst snd]. split; [auto|]. split; [lia|]. split.
  { intros k K. destruct (I2 k K) as [A1 A2]. split; [|rewrite K1 by exact K; exact A2]. rewrite <- A1. pose proof (turn_bare cf s t k ltac:(lia)) as TB. rewrite E in TB. exact TB. }
  split; [exact K2|]. split; [now apply NoDup_snoc|]. split; [now rewrite map_app, I5|]. split.
  - intros k. rewrite (get_nth _ _ _ _ _ T). destruct (Nat.eqb_spec k j) as [->|]; [|apply I7]. rewrite C. split; discriminate.
  - intros k d v K. rewrite (get_nth _ _ _ _ _ T). destruct (Nat.eqb_spec k j) as [->|NE].
    + intros X. injection X as <-. assert (d = c) as -> by congruence. split; [|apply OWN]. pose proof (belongs_step cf s c t (proj1 (I6 _ _ _ C T))) as B. rewrite E in B. exact B.
    + intros X. destruct (I6 k d v K X) as [B P]. split; [exact B|]. now apply lphase_other.
Qed.

Lemma linv_go cf s0 cs lin w j : about s0 cs -> Forall given cs -> linv cf s0 cs lin w -> exists lin', linv cf s0 cs lin' (go cf w j).
Proof.
  intros AB GV. destruct w as [[s out] ts]. intros INV. cbn [go]. destruct (nth_error ts j) as [t|] eqn:T; [|exists lin; exact INV].
  assert (INV' := INV). destruct INV' as ((S1 & S2 & S3 & S4) & I1 & I2 & I3 & I4 & I5 & I7 & I6).
  destruct (nth_error cs j) as [c|] eqn:C; [|now rewrite (proj2 (I7 j) C) in T]. destruct (I6 j c t C T) as [B P].
  pose proof (linv_entry cf s0 cs lin s out ts j c t) as LE. cbv zeta in LE. set (q := fst (one_by_one cf cs s0 lin)) in *.
  assert (LAST : forall (l : list (nat * (list notification * res unit))) x, In x (l ++ [x])) by (intros l x; apply in_or_app; right; now left).
  destruct (match t with Named _ _ | Begun (KDelete _) => true | _ => false end) eqn:NM.
  - exists (lin ++ [j]). destruct t as [[uid sp now|r a st|r]|u sp|r i old new|r i old|n|x]; try discriminate; cbn [belongs] in B.
    + subst c. cbn [lphase] in P. destruct P as [P1 P2].
      assert (R : (r < List.length (sys_heap s0))%nat) by exact (AB _ (nth_error_In _ _ C)). destruct (I2 r R) as [U1 U2].
      assert (U : e_uid (obj s r) = e_uid (obj q r)) by (rewrite U2; now apply bare_uid).
      cbn [op_of step] in LE. unfold delete_event in LE. rewrite <- U, <- S1 in LE.
      destruct (ddel (sys_store s) (e_uid (obj s r))) as [d|x|] eqn:G.
      * assert (E : tstep cf s (Begun (KDelete r)) = (with_store s d, [], Ready (NDeleted (e_uid (obj s r))))) by (cbn [tstep]; now rewrite G).
        rewrite E. apply (LE _ _ INV C T E P1); auto. intros res. cbn [lphase]. split; [apply LAST|exact P2].
      * assert (E : tstep cf s (Begun (KDelete r)) = (s, [], Ended (Raise x))) by (cbn [tstep]; now rewrite G).
        rewrite E. apply (LE _ _ INV C T E P1); auto. intros res. cbn [lphase]. rewrite P2. apply LAST.
      * assert (E : tstep cf s (Begun (KDelete r)) = (s, [], Ended OutOfFuel)) by (cbn [tstep]; now rewrite G).
        rewrite E. apply (LE _ _ INV C T E P1); auto. intros res. cbn [lphase]. rewrite P2. apply LAST.
    + destruct B as (uid & now & ->). cbn [lphase] in P. destruct P as (P1 & P2 & ->).
      cbn [op_of step] in LE. unfold create_event in LE. destruct (new_event u sp) as [e|x|] eqn:NE.
      * assert (E : tstep cf s (Named u sp) = (mkSys (sys_heap s ++ [e]) (dset (sys_store s) u (List.length (sys_heap s))) (sys_source s) (sys_cals s), [], Ready (NCreated u))) by (cbn [tstep]; now rewrite NE).
        rewrite E. apply (LE _ _ INV C T E P1); auto.
        -- cbn. rewrite S1, S4. reflexivity.
        -- cbn. rewrite !app_length. now rewrite S4.
        -- cbn. rewrite app_length. lia.
        -- intros k K. unfold sst, drop. cbn [fst snd]. apply obj_push. lia.
        -- intros k K. unfold sst, drop. cbn [fst snd]. destruct (Nat.lt_ge_cases k (List.length (sys_heap s))) as [L|L].
           ++ rewrite !obj_push by lia. now apply I3.
           ++ unfold obj. cbn [sys_heap]. rewrite (app_nth2 (sys_heap s)) by lia. rewrite (app_nth2 (sys_heap q)) by lia. now rewrite S4.
        -- intros res. cbn [lphase]. split; [apply LAST|exact P2].
      * assert (E : tstep cf s (Named u sp) = (s, [], Ended (Raise x))) by (cbn [tstep]; now rewrite NE).
        rewrite E. apply (LE _ _ INV C T E P1); auto. intros res. cbn [lphase]. rewrite P2. apply LAST.
      * assert (E : tstep cf s (Named u sp) = (s, [], Ended OutOfFuel)) by (cbn [tstep]; now rewrite NE).
        rewrite E. apply (LE _ _ INV C T E P1); auto. intros res. cbn [lphase]. rewrite P2. apply LAST.
  - exists lin. destruct (turn_quiet cf s c t (List.length (sys_heap s0)) B) as (Q1 & Q2 & Q3 & Q4 & Q5).
    { intros r a st ->. exact (AB _ (nth_error_In _ _ C)). }
    { destruct t as [[| |]| | | | |]; auto; discriminate. }
    destruct (tstep cf s t) as [[s' n] t'] eqn:E. cbn [fst] in Q1, Q2, Q3, Q4, Q5. eapply linv_quiet; try eassumption.
    destruct c as [uid sp now|r a st|r]; [|exact P|].
    + destruct t as [c'|u sp'|r i old new|r i old|m|x]; cbn [belongs] in B; try discriminate; cbn [tstep] in E.
      * subst c'. injection E as <- <- <-. cbn [lphase] in *. destruct P as [P1 P2]. rewrite app_nil_r. repeat split; auto.
        pose proof (proj1 (Forall_forall _ _) GV _ (nth_error_In _ _ C)) as X. destruct uid; [reflexivity|contradiction].
      * injection E as <- <- <-. cbn [lphase] in *. destruct P as (P & ->). exact P.
      * injection E as <- <- <-. rewrite app_nil_r. exact P.
    + destruct t as [c'|u sp'|r' i old new|r' i old|m|x]; cbn [belongs] in B; try discriminate.
      * subst c'. discriminate.
      * cbn [tstep] in E. injection E as <- <- <-. cbn [lphase] in *. destruct P as (P & ->). exact P.
      * cbn [tstep] in E. injection E as <- <- <-. rewrite app_nil_r. exact P.
Qed.

Lemma linv_turns cf s0 cs sched : about s0 cs -> Forall given cs -> exists lin, linv cf s0 cs lin (take_turns cf (start s0 cs) sched).
Proof.
  intros AB GV. unfold take_turns. assert (X : exists lin, linv cf s0 cs lin (start s0 cs)).
  { exists []. unfold start, linv. cbn [one_by_one fold_left fst snd]. split; [auto|]. split; [lia|]. split; [auto|]. split; [auto|]. split; [constructor|]. split; [reflexivity|]. split.
    - intros j. rewrite nth_error_map. destruct (nth_error cs j); cbn; split; congruence.
    - intros j c t C. rewrite nth_error_map, C. cbn. intros X. injection X as <-. split; [reflexivity|]. destruct c; cbn [lphase]; auto. }
  revert X. generalize (start s0 cs). induction sched as [|j sched IH]; intros w W; [exact W|]. cbn [fold_left]. apply IH. destruct W as [lin W]. now apply (linv_go cf s0 cs lin).
Qed.

(** an answer given alone in a state where the answer is as in [s0] *)
Definition jinv (s0 q : system) (H : nat) (c : call) (w : running) : Prop :=
  let '(s, out, ts) := w in
  exists t, ts = [t] /\ belongs c t /\ phase s0 s c t (said 0 out)
  /\ (sys_store s = sys_store q /\ sys_source s = sys_source q /\ sys_cals s = sys_cals q /\ List.length (sys_heap s) = List.length (sys_heap q))
  /\ (forall k, (k < List.length (sys_heap q))%nat -> bare (obj s k) = bare (obj q k))
  /\ (forall k, (k < List.length (sys_heap q))%nat -> dicts_ok (obj q k) -> dicts_ok (obj s k) /\ forall i, ~ In (k, i) (target c) -> cell s k i = cell q k i)
  /\ (forall k, (H <= k)%nat -> obj s k = obj q k).

Lemma jinv_go cf s0 q H r a st w : (r < H)%nat -> (r < List.length (sys_heap q))%nat -> dicts_ok (obj s0 r) -> dicts_ok (obj q r) -> e_uid (obj q r) = e_uid (obj s0 r) ->
  jinv s0 q H (KStatus r a st) w -> jinv s0 q H (KStatus r a st) (go cf w 0).
Proof.
  intros RH RL D0 D U. destruct w as [[s out] ts]. intros (t & -> & B & P & (S1 & S2 & S3 & S4) & J1 & J2 & J3). cbn [go nth_error].
  destruct (J2 r RL D) as [DS _].
  pose proof (phase_own cf s0 s _ t (said 0 out) r a st eq_refl B ltac:(lia) D0 DS ltac:(rewrite <- U; apply bare_uid, J1; exact RL) P) as P'. cbv zeta in P'.
  pose proof (belongs_step cf s _ t B) as B'. pose proof (fun k L => turn_bare cf s t k L) as TB. pose proof (fun k L => turn_frame cf s t k L) as TF. pose proof (fun k i => step_target cf s _ t k i B) as ST.
  destruct (turn_quiet cf s _ t H B) as (Q1 & Q2 & Q3 & Q4 & Q5).
  { intros r' a' st' X. injection X as -> _ _. exact RH. }
  { destruct t as [[| |]| | | | |]; auto; cbn [belongs] in B; try discriminate B. }
  destruct (tstep cf s t) as [[s' n] t'] eqn:E. cbn [fst snd] in *. unfold jinv. exists t'. split; [reflexivity|]. split; [exact B'|].
  split; [now rewrite said_app, said_pair, Nat.eqb_refl|]. split; [repeat split; congruence|]. split; [|split].
  - intros k L. rewrite <- (J1 k L). apply TB. lia.
  - intros k L DK. destruct (J2 k L DK) as [DK' CK]. split; [apply (TF k ltac:(lia) DK')|]. intros i N. rewrite <- (CK i N). apply ST; [lia|exact DK'|exact N].
  - intros k K. rewrite Q5 by exact K. now apply J3.
Qed.

Lemma status_alone cf s0 q H r a st : (r < H)%nat -> (r < List.length (sys_heap q))%nat -> dicts_ok (obj s0 r) -> dicts_ok (obj q r) -> e_uid (obj q r) = e_uid (obj s0 r) ->
  (forall i, a = Some i -> cell q r i = cell s0 r i) ->
  let m := step cf q (OSetStatus r a st) in
  let m0 := set_status (obj s0 r) a st in
  snt m = mnt m0 /\ srs m = mres m0 /\ (forall i, a = Some i -> cell (sst m) r i = cell_of (mev m0) i)
  /\ (sys_store (sst m) = sys_store q /\ sys_source (sst m) = sys_source q /\ sys_cals (sst m) = sys_cals q /\ List.length (sys_heap (sst m)) = List.length (sys_heap q))
  /\ (forall k, (k < List.length (sys_heap q))%nat -> bare (obj (sst m) k) = bare (obj q k))
  /\ (forall k, (k < List.length (sys_heap q))%nat -> dicts_ok (obj q k) -> dicts_ok (obj (sst m) k) /\ forall i, ~ In (k, i) (target (KStatus r a st)) -> cell (sst m) k i = cell q k i)
  /\ (forall k, (H <= k)%nat -> obj (sst m) k = obj q k).
Proof.
  intros RH RL D0 D U CE. assert (J : jinv s0 q H (KStatus r a st) (take_turns cf (start q [KStatus r a st]) [0; 0; 0; 0]%nat)).
  { unfold take_turns. cbn [fold_left]. do 4 (apply jinv_go; auto). unfold start, jinv. exists (Begun (KStatus r a st)). split; [reflexivity|]. split; [reflexivity|]. split; [split; [reflexivity|exact CE]|]. split; [auto|]. split; [auto|]. split; [auto|auto]. }
  rewrite C168_alone in J. cbn [op_of] in J. cbv zeta. destruct J as (t & T & B & P & J0 & J1 & J2 & J3). injection T as <-. cbn [phase] in P. destruct P as (P1 & P2 & P3).
  rewrite said_pair, Nat.eqb_refl in P1. auto 8.
Qed.

(** answers given one after the other *)
Definition statuses_only (cs : list call) (l : list nat) : Prop := forall j, In j l -> exists r a st, nth_error cs j = Some (KStatus r a st).
Lemma answers_run cf s0 cs : (forall r, dicts_ok (obj s0 r)) -> separate cs -> about s0 cs -> forall l q res, NoDup l -> statuses_only cs l ->
  (List.length (sys_heap s0) <= List.length (sys_heap q))%nat ->
  (forall k, (k < List.length (sys_heap s0))%nat -> bare (obj q k) = bare (obj s0 k) /\ dicts_ok (obj q k)) ->
  (forall j r i st, In j l -> nth_error cs j = Some (KStatus r (Some i) st) -> cell q r i = cell s0 r i) ->
  let w := fold_left (whole cf cs) l (q, res) in
  (sys_store (fst w) = sys_store q /\ sys_source (fst w) = sys_source q /\ sys_cals (fst w) = sys_cals q /\ List.length (sys_heap (fst w)) = List.length (sys_heap q))
  /\ (forall k, (k < List.length (sys_heap s0))%nat -> bare (obj (fst w) k) = bare (obj s0 k))
  /\ (forall k, (List.length (sys_heap s0) <= k)%nat -> obj (fst w) k = obj q k)
  /\ (forall k i, (k < List.length (sys_heap s0))%nat -> (forall j c, In j l -> nth_error cs j = Some c -> ~ In (k, i) (target c)) -> cell (fst w) k i = cell q k i)
  /\ (forall p, In p res -> In p (snd w))
  /\ (forall j r a st, In j l -> nth_error cs j = Some (KStatus r a st) ->
        let m0 := set_status (obj s0 r) a st in
        In (j, (mnt m0, mres m0)) (snd w) /\ forall i, a = Some i -> cell (fst w) r i = cell_of (mev m0) i).
Proof.
  intros D0 SEP AB. induction l as [|j l IH]; intros q res ND SO LEN OLD CE.
  { cbn [fold_left fst snd]. repeat split; auto; try (apply OLD; assumption); contradiction. }
  inversion ND as [|? ? NJ ND']; subst. destruct (SO j (or_introl eq_refl)) as (r & a & st & C).
  assert (R : (r < List.length (sys_heap s0))%nat) by exact (AB _ (nth_error_In _ _ C)). destruct (OLD r R) as [OB OD].
  pose proof (status_alone cf s0 q (List.length (sys_heap s0)) r a st R ltac:(lia) (D0 r) OD (bare_uid _ _ OB)) as SA. cbv zeta in SA.
  destruct SA as (A1 & A2 & A3 & (A4 & A5 & A6 & A7) & A8 & A9 & A10).
  { intros i ->. apply (CE j r i st); [now left|exact C]. }
  cbn [fold_left]. set (m := step cf q (OSetStatus r a st)) in *.
  assert (WJ : whole cf cs (q, res) j = (sst m, res ++ [(j, (snt m, srs m))])) by (unfold whole; now rewrite C). rewrite !WJ.
  destruct (IH (sst m) (res ++ [(j, (snt m, srs m))])) as ((B1 & B2 & B3 & B4) & B5 & B6 & B7 & B8 & B9); auto.
  - intros k K. apply SO. now right.
  - lia.
  - intros k K. destruct (OLD k K) as [O1 O2]. split; [rewrite <- O1; apply A8; lia|]. now apply A9; [lia|].
  - intros k r' i st' K C'. rewrite <- (CE k r' i st' (or_intror K) C').
    assert (R' : (r' < List.length (sys_heap s0))%nat) by exact (AB _ (nth_error_In _ _ C')). apply A9; [lia|apply OLD; exact R'|].
    intros X. apply NJ. replace j with k; [exact K|]. eapply (targets_differ cs SEP k j); try eassumption. now left.
  - cbv zeta. split; [repeat split; congruence|]. split; [exact B5|]. split; [intros k K; rewrite B6 by exact K; now apply A10|]. split; [|split].
    + intros k i K N. rewrite B7; [|exact K|intros j' c I; apply N; now right]. apply A9; [lia|apply OLD; exact K|]. apply (N j); [now left|exact C].
    + intros p I. apply B8, in_or_app. now left.
    + intros j' r' a' st' [<-|I] C'.
      * rewrite C in C'. injection C' as <- <- <-. split; [rewrite <- A1, <- A2; apply B8, in_or_app; right; now left|].
        intros i E. rewrite <- (A3 i E). apply B7; [exact R|]. intros k c K C2 X. apply NJ. replace j with k; [exact K|]. eapply (targets_differ cs SEP k j); try eassumption. rewrite E. now left.
      * exact (B9 j' r' a' st' I C').
Qed.

(** Whatever the order of the actions, if no two calls change the same answer and every
    createEvent gives its id: once all calls are over, there is an order in which the calls,
    one after the other, announce the same, end the same and leave the same.  Missing: ids
    made by the storage, and calls that change the same answer *)
Theorem C168_serial_partial : forall cf s cs sched, reachable cf s -> separate cs -> about s cs -> Forall given cs ->
  let w := take_turns cf (start s cs) sched in
  (forall j t, nth_error (w_threads w) j = Some t -> exists x, t = Ended x) ->
  exists order, Permutation order (seq 0 (List.length cs))
  /\ let q := one_by_one cf cs s order in
     same_state (w_sys w) (fst q)
     /\ forall j x, nth_error (w_threads w) j = Some (Ended x) -> In (j, (said j (w_out w), x)) (snd q).
Proof.
  intros cf s cs sched RE SEP AB GV. cbv zeta. pose proof (inv_turns cf s cs sched (fun r => reachable_dicts_ok cf s r RE) SEP AB) as I.
  destruct (linv_turns cf s cs sched AB GV) as [lin L]. destruct (take_turns cf (start s cs) sched) as [[s' out] ts]. unfold w_threads, w_out, w_sys. cbn [fst snd].
  destruct I as (_ & I2 & I3 & _ & I5). destruct L as ((L1 & L2 & L3 & L4) & L5 & L6 & L7 & L8 & L9 & L10 & L11). intros EN.
  set (q := one_by_one cf cs s lin) in *.
  set (st := filter (fun j => match nth_error cs j with Some (KStatus _ _ _) => true | _ => false end) (seq 0 (List.length cs))).
  assert (SO : statuses_only cs st).
  { intros j J. apply filter_In in J. destruct J as [_ J]. destruct (nth_error cs j) as [[| |]|]; try discriminate. eauto. }
  assert (INS : forall j r a x, nth_error cs j = Some (KStatus r a x) -> In j st).
  { intros j r a x C. apply filter_In. split; [apply in_seq; split; [lia|]; apply nth_error_Some; congruence|now rewrite C]. }
  assert (THR : forall j c, nth_error cs j = Some c -> exists x, nth_error ts j = Some (Ended x)).
  { intros j c C. destruct (nth_error ts j) as [t|] eqn:T; [|apply L10 in T; congruence]. destruct (EN j t T) as [x ->]. eauto. }
  assert (LIN : forall j, In j lin -> exists c, nth_error cs j = Some c /\ ~ In j st).
  { intros j J. assert (X : nth_error cs j <> None).
    { intros N. clear -L9 J N. unfold q in L9.
      assert (G : forall l a, In j (map fst (snd (fold_left (whole cf cs) l a))) -> In j (map fst (snd a))).
      { induction l as [|k l IH]; intros a; [auto|]. cbn [fold_left]. intros X. apply IH in X. unfold whole in X. destruct (nth_error cs k) eqn:K; [|exact X]. cbn [snd] in X. rewrite map_app in X. apply in_app_or in X.
        destruct X as [X|[X|[]]]; [exact X|]. cbn in X. congruence. }
      rewrite <- L9 in J. apply G in J. exact J. }
    destruct (nth_error cs j) as [c|] eqn:C; [|congruence]. exists c. split; [reflexivity|]. intros Y. destruct (SO j Y) as (r & a & y & C'). destruct (THR j c C) as [x T].
    destruct (L11 j c _ C T) as [_ P]. rewrite C in C'. injection C' as ->. cbn [lphase] in P. contradiction. }
  exists (lin ++ st). split.
  { apply NoDup_Permutation.
    - apply NoDup_app_intro; [exact L8|apply NoDup_filter, seq_NoDup|]. intros j J1 J2. destruct (LIN j J1) as (c & _ & N). contradiction.
    - apply seq_NoDup.
    - intros j. rewrite in_seq. split.
      + intros X. apply in_app_or in X. split; [lia|]. cbn [plus]. apply nth_error_Some. destruct X as [X|X]; [destruct (LIN j X) as (c & C & _); congruence|]. destruct (SO j X) as (r & a & y & C). congruence.
      + intros [_ X]. cbn [plus] in X. apply nth_error_Some in X. destruct (nth_error cs j) as [c|] eqn:C; [|congruence]. apply in_or_app. destruct (THR j c C) as [x T]. destruct (L11 j c _ C T) as [_ P].
        destruct c as [uid sp now|r a y|r]; cbn [lphase] in P.
        * left. rewrite <- L9. apply in_map_iff. eexists. split; [|exact P]. reflexivity.
        * right. eapply INS. exact C.
        * left. rewrite <- L9. apply in_map_iff. eexists. split; [|exact P]. reflexivity. }
  assert (QQ : one_by_one cf cs s (lin ++ st) = fold_left (whole cf cs) st (fst q, snd q)).
  { unfold one_by_one. rewrite fold_left_app. fold (one_by_one cf cs s lin). fold q. now destruct q. }
  rewrite QQ. destruct (answers_run cf s cs (fun r => reachable_dicts_ok cf s r RE) SEP AB st (fst q) (snd q)) as ((B1 & B2 & B3 & B4) & B5 & B6 & B7 & B8 & B9).
  { apply NoDup_filter, seq_NoDup. }
  { exact SO. }
  { lia. }
  { intros k K. destruct (L6 k K) as [_ ->]. split; [reflexivity|now apply (reachable_dicts_ok cf)]. }
  { intros j r i y J C. assert (R : (r < List.length (sys_heap s))%nat) by exact (AB _ (nth_error_In _ _ C)). unfold cell. now rewrite (proj2 (L6 r R)). }
  cbv zeta in B9. split.
  - split; [congruence|]. split; [congruence|]. split; [congruence|]. split; [congruence|]. intros k. destruct (Nat.lt_ge_cases k (List.length (sys_heap s))) as [K|K].
    + split; [rewrite B5 by exact K; apply L6; exact K|]. intros i.
      destruct (in_dec (fun x y : nat * string => ltac:(decide equality; [apply string_dec|apply Nat.eq_dec])) (k, i) (flat_map target cs)) as [Y|N].
      * apply in_flat_map in Y. destruct Y as (c & Y1 & Y2). apply In_nth_error in Y1. destruct Y1 as [j C]. destruct c as [uid sp now|r a y|r]; try contradiction. destruct a as [i'|]; [|contradiction].
        destruct Y2 as [Y2|[]]. injection Y2 as -> ->. destruct (THR j _ C) as [x T]. destruct (I5 j _ _ C T) as [_ P]. cbn [phase] in P. destruct P as (_ & _ & P). rewrite (P i eq_refl).
        symmetry. apply (B9 j k (Some i) y); [eapply INS; exact C|exact C|reflexivity].
      * rewrite (I3 k i K N). rewrite B7; [unfold cell; now rewrite (proj2 (L6 k K))|exact K|]. intros j c J C X. apply N, in_flat_map. exists c. split; [eapply nth_error_In; exact C|exact X].
    + rewrite (L7 k K), <- (B6 k K). split; [reflexivity|]. intros i. unfold cell. rewrite (L7 k K), <- (B6 k K). reflexivity.
  - intros j x T. destruct (nth_error cs j) as [c|] eqn:C; [|apply L10 in C; congruence]. destruct (L11 j c _ C T) as [_ P]. destruct c as [uid sp now|r a y|r]; cbn [lphase] in P.
    + apply B8. exact P.
    + destruct (I5 j _ _ C T) as [_ P']. cbn [phase] in P'. destruct P' as (P1 & P2 & _). destruct (B9 j r a y (INS _ _ _ _ C) C) as [B _]. rewrite P1, P2 in B. exact B.
    + apply B8. exact P.
Qed.

(** ** Any calls at all *)
Definition ophase (c : call) (t : thread) (o : list notification) : Prop :=
  forall r a st, c = KStatus r a st ->
  let news n := exists u i old, a = Some i /\ old <> st /\ n = NParticipation u i old st in
  match t with
  | Begun _ => o = []
  | Asked _ _ old _ => o = [] /\ valid st = true /\ old <> st
  | Forgot _ _ old => o = [] /\ old <> None
  | Ready n => o = [] /\ valid st = true /\ news n
  | Ended x => (x = Ok tt /\ valid st = true /\ a <> None /\ (o = [] \/ exists n, news n /\ o = [n]))
      \/ (o = [] /\ ((x = Raise AssertionError /\ valid st = false) \/ (x = Raise AttributeError /\ valid st = true /\ a = None) \/ (x = Raise KeyError /\ st = None /\ a <> None)))
  | Named _ _ => False
  end.
Lemma ophase_step cf s c t o : belongs c t -> ophase c t o -> ophase c (snd (tstep cf s t)) (o ++ snd (fst (tstep cf s t))).
Proof.
  intros B P r a st ->. specialize (P r a st eq_refl). cbv zeta in *. destruct t as [c'|u sp|r' i old new|r' i old|n|x]; cbn [belongs] in B; cbn [tstep].
  - subst c' o. change (match st with None => true | Some v => str_in v statuses end) with (valid st). destruct (valid st) eqn:V; [|cbn [fst snd app]; right; auto 10].
    destruct a as [i|]; [|cbn [fst snd app]; right; auto 10]. cbn [fst snd app]. destruct (opt_str_eqb _ st) eqn:Q.
    + left. split; [reflexivity|]. split; [reflexivity|]. split; [discriminate|now left].
    + repeat split; auto. intros X. rewrite X in Q. now rewrite (proj2 (opt_str_eqb_eq st st) eq_refl) in Q.
  - contradiction.
  - injection B as <- -> <-. destruct P as (-> & V & N). destruct st as [v|].
    + cbn [fst snd app]. repeat split; auto. eauto 7.
    + destruct (ddel _ i) as [d|x|] eqn:E; cbn [fst snd app]; auto.
      * right. split; [reflexivity|]. right. right. unfold ddel in E. destruct (dget _ i); [discriminate|]. injection E as <-. repeat split. discriminate.
      * unfold ddel in E. destruct (dget _ i); discriminate.
  - injection B as <- -> ->. destruct P as (-> & N). destruct (ddel _ i) as [d|x|] eqn:E; cbn [fst snd app]; auto.
    + repeat split; auto. eauto 7.
    + right. split; [reflexivity|]. right. right. unfold ddel in E. destruct (dget _ i); [discriminate|]. injection E as <-. repeat split. discriminate.
    + unfold ddel in E. destruct (dget _ i); discriminate.
  - destruct P as (-> & V & N). cbn [fst snd app]. left. repeat split; auto; [|right; exists n; auto]. destruct N as (? & ? & ? & -> & _). discriminate.
  - cbn [fst snd]. rewrite app_nil_r. exact P.
Qed.
Definition oinv (cs : list call) (w : running) : Prop :=
  let '(s, out, ts) := w in
  (forall j, nth_error ts j = None <-> nth_error cs j = None)
  /\ forall j c t, nth_error cs j = Some c -> nth_error ts j = Some t -> belongs c t /\ ophase c t (said j out).
Lemma oinv_turns cf s0 cs sched : oinv cs (take_turns cf (start s0 cs) sched).
Proof.
  unfold take_turns. assert (X : oinv cs (start s0 cs)).
  { unfold start, oinv. split; [intros j; rewrite nth_error_map; destruct (nth_error cs j); cbn; split; congruence|].
    intros j c t C. rewrite nth_error_map, C. cbn. intros X. injection X as <-. split; [reflexivity|]. intros r a st _. reflexivity. }
  revert X. generalize (start s0 cs). induction sched as [|j sched IH]; intros w W; [exact W|]. cbn [fold_left]. apply IH. clear IH.
  destruct w as [[s out] ts]. cbn [go]. destruct (nth_error ts j) as [t|] eqn:T; [|exact W]. destruct W as [I7 I6].
  destruct (nth_error cs j) as [c|] eqn:C; [|now rewrite (proj2 (I7 j) C) in T]. destruct (I6 j c t C T) as [B P].
  pose proof (ophase_step cf s c t _ B P) as P'. pose proof (belongs_step cf s c t B) as B'. destruct (tstep cf s t) as [[s' n] t']. cbn [fst snd] in *. split.
  - intros k. rewrite (get_nth _ _ _ _ _ T). destruct (Nat.eqb_spec k j) as [->|]; [|apply I7]. rewrite C. split; discriminate.
  - intros k d v K. rewrite (get_nth _ _ _ _ _ T), said_app, said_pair, (Nat.eqb_sym j k). destruct (Nat.eqb_spec k j) as [->|NE].
    + intros X. injection X as <-. assert (d = c) as -> by congruence. auto.
    + intros X. rewrite app_nil_r. now apply I6.
Qed.

(** Whatever the calls and the order of their actions: a setParticipationStatus that is over has
    returned, or raised AssertionError exactly for an unknown status, AttributeError exactly
    for a known status and no attendee, or KeyError, for a removal only.  It has announced
    nothing if it raised, and else at most one change: to its status, from another one *)
Theorem C168_outcomes : forall cf s cs sched j r a st x,
  nth_error cs j = Some (KStatus r a st) ->
  let w := take_turns cf (start s cs) sched in
  nth_error (w_threads w) j = Some (Ended x) ->
  (x = Raise AssertionError <-> (st <> None /\ forall v, st = Some v -> ~ In v statuses))
  /\ (x = Raise AttributeError <-> (st = None \/ exists v, st = Some v /\ In v statuses) /\ a = None)
  /\ (x = Ok tt \/ x = Raise AssertionError \/ x = Raise AttributeError \/ (x = Raise KeyError /\ st = None))
  /\ (said j (w_out w) = []
      \/ exists u i old, x = Ok tt /\ a = Some i /\ old <> st /\ said j (w_out w) = [NParticipation u i old st]).
Proof.
  intros cf s cs sched j r a st x C w T. pose proof (oinv_turns cf s cs sched) as I. fold w in I. destruct w as [[s' out] ts]. unfold w_threads, w_out in *. cbn [fst snd] in *.
  destruct (proj2 I j _ _ C T) as [_ P]. specialize (P r a st eq_refl). cbv zeta in P. cbn [ophase] in P.
  assert (V1 : valid st = true <-> (st = None \/ exists v, st = Some v /\ In v statuses)).
  { destruct st as [v|]; cbn [valid]; [|split; auto]. rewrite str_in_iff. split; [intros X; right; eauto|intros [X|(v' & X & Y)]; [discriminate|injection X as <-; exact Y]]. }
  assert (V2 : valid st = false <-> (st <> None /\ forall v, st = Some v -> ~ In v statuses)).
  { destruct st as [v|]; cbn [valid]; [|split; [discriminate|intros [X _]; congruence]]. rewrite <- Bool.not_true_iff_false, str_in_iff. split; [intros X; split; [discriminate|intros v' Y; injection Y as <-; exact X]|intros [_ X]; now apply X]. }
  rewrite <- V1, <- V2. destruct P as [(-> & V & N & O)|(-> & [(-> & V)|[(-> & V & ->)|(-> & -> & N)]])].
  - split; [split; [discriminate|congruence]|]. split; [split; [discriminate|intros [_ X]; contradiction]|]. split; [auto|]. destruct O as [O|(n & (u & i & old & E & Z & ->) & O)]; [auto|right]. exists u, i, old. auto.
  - split; [split; auto|]. split; [split; [discriminate|intros [X _]; congruence]|]. auto.
  - split; [split; [discriminate|congruence]|]. split; [split; auto|]. auto.
  - split; [split; [discriminate|discriminate]|]. split; [split; [discriminate|intros [_ X]; contradiction]|]. auto 6.
Qed.

(** two creations of the same id and two deletions of one event, between the answers *)
Definition l_calls : list call :=
  [KStatus 0 ann (Some "ACCEPTED"%string); KStatus 0 bob None; KCreate (Some "n"%string) (k_meet 732503) 0; KCreate (Some "n"%string) (k_meet 732504) 0; KDelete 0; KDelete 0].
Definition l_sched : list nat := [3; 2; 1; 0; 4; 1; 0; 5; 2; 3; 1; 0; 3; 4; 2; 1; 1]%nat.
Example C168_serial_case :
  reachable cf0 k_state /\ separate l_calls /\ about k_state l_calls /\ Forall given l_calls
  /\ (let w := take_turns cf0 (start k_state l_calls) l_sched in
      w_threads w = [Ended (Ok tt); Ended (Ok tt); Ended (Ok tt); Ended (Ok tt); Ended (Ok tt); Ended (Raise KeyError)]
      /\ map fst (w_out w) = [0; 3; 4; 2; 1]%nat
      /\ sys_store (w_sys w) = [("n"%string, 2%nat)]
      /\ (let q := one_by_one cf0 l_calls k_state [4; 5; 2; 3; 0; 1]%nat in
          sys_store (fst q) = [("n"%string, 2%nat)] /\ cell (fst q) 0 "bob"%string = cell (w_sys w) 0 "bob"%string
          /\ nth_error (snd q) 1 = Some (5%nat, ([], Raise KeyError)))
      /\ sys_store (fst (one_by_one cf0 l_calls k_state [4; 5; 3; 2; 0; 1]%nat)) = [("n"%string, 2%nat)]
      /\ e_dtstart (obj (w_sys w) 2) <> e_dtstart (obj (fst (one_by_one cf0 l_calls k_state [4; 5; 3; 2; 0; 1]%nat)) 2)).
Proof.
  split; [apply run_reachable|]. split.
  { vm_compute. constructor; [intros [X|[]]; discriminate|]. constructor; [intros []|constructor]. }
  split. { intros c. cbn [In l_calls]. intros [<-|[<-|[<-|[<-|[<-|[<-|[]]]]]]]; vm_compute; auto; lia. }
  split; [repeat constructor|]. vm_compute. repeat split. discriminate.
Qed.

Example C168_outcomes_case :
  w_threads (take_turns cf0 (start k_state [KStatus 0 ann (Some "MAYBE"%string); KStatus 0 None (Some "ACCEPTED"%string); KStatus 0 bob None; KStatus 0 bob None; KStatus 0 ann (Some "NEEDS-ACTION"%string)])
    [4; 2; 3; 0; 1; 2; 3; 2; 2]%nat)
  = [Ended (Raise AssertionError); Ended (Raise AttributeError); Ended (Ok tt); Ended (Raise KeyError); Ended (Ok tt)].
Proof. reflexivity. Qed.

Print Assumptions C168_serial_partial.
Print Assumptions C168_outcomes.
