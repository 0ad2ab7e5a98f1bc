(** Generated unique ids. *)
From Verif Require Import Base PyDate DateFacts Recurrent CalTime TimeProofs Event Storage ICal System
  QueryProofs EventProofs SpecProofs SystemProofs.
From Coq Require Import ZifyBool DecimalString DecimalNat.
Ltac Zify.zify_post_hook ::= Z.div_mod_to_equations.
Local Opaque ord2ymd year_of month_of day_of ymd2ord days_in_month is_leap.

(** ** strings *)
Lemma app_length_s a b : String.length (a ++ b) = (String.length a + String.length b)%nat.
Proof. induction a as [|c a IH]; cbn; [reflexivity|]. now rewrite IH. Qed.

Lemma app_inj_s a : forall b c d, String.length a = String.length c -> (a ++ b = c ++ d)%string -> a = c /\ b = d.
Proof.
  induction a as [|x a IH]; intros b [|y c] d L E; cbn in *; try discriminate.
  - auto.
  - injection E as -> E. destruct (IH b c d) as [-> ->]; [lia|exact E|auto].
Qed.

Lemma app_inv_tail_s a b c : (a ++ c = b ++ c)%string -> a = b.
Proof.
  intros E. assert (L : String.length a = String.length b).
  { apply (f_equal String.length) in E. rewrite !app_length_s in E. lia. }
  now destruct (app_inj_s a c b c L E).
Qed.

Lemma app_inv_head_s a b c : (a ++ b = a ++ c)%string -> b = c.
Proof. intros E. now destruct (app_inj_s a b a c eq_refl E). Qed.

(** ** numbers *)
Lemma pad_length w : forall n, String.length (pad w n) = w.
Proof. induction w as [|w IH]; intros n; cbn [pad]; [reflexivity|]. rewrite app_length_s, IH. cbn. lia. Qed.

Lemma digit_inj a b : 0 <= a < 10 -> 0 <= b < 10 ->
  ascii_of_nat (48 + Z.to_nat a) = ascii_of_nat (48 + Z.to_nat b) -> a = b.
Proof.
  intros H1 H2 E. apply (f_equal nat_of_ascii) in E. rewrite !nat_ascii_embedding in E by lia. lia.
Qed.

Lemma pad_inj w : forall n m, 0 <= n < 10 ^ Z.of_nat w -> 0 <= m < 10 ^ Z.of_nat w -> pad w n = pad w m -> n = m.
Proof.
  induction w as [|w IH]; intros n m Hn Hm E.
  - cbn in *. lia.
  - cbn [pad] in E. apply app_inj_s in E as [E1 E2]; [|now rewrite !pad_length].
    injection E2 as E2.
    assert (D : n mod 10 = m mod 10) by (apply digit_inj; [apply Z.mod_pos_bound; lia|apply Z.mod_pos_bound; lia|exact E2]).
    rewrite Nat2Z.inj_succ, Z.pow_succ_r in Hn, Hm by lia.
    assert (Q : n / 10 = m / 10).
    { apply IH; [| |exact E1]; (split; [apply Z.div_pos; lia|apply Z.div_lt_upper_bound; lia]). }
    rewrite (Z_div_mod_eq_full n 10), (Z_div_mod_eq_full m 10). lia.
Qed.

Lemma dec_inj a b : dec a = dec b -> a = b.
Proof.
  unfold dec. intros E. apply Unsigned.to_uint_inj.
  apply (f_equal NilEmpty.uint_of_string) in E. rewrite !NilEmpty.usu in E. congruence.
Qed.

Lemma iso8601_eq t : iso8601 t =
  (pad 4 (year_of (dt_date t)) ++ pad 2 (month_of (dt_date t)) ++ pad 2 (day_of (dt_date t)) ++ "T"
   ++ pad 2 (dt_time t / SECOND / 3600) ++ pad 2 (dt_time t / SECOND / 60 mod 60) ++ pad 2 (dt_time t / SECOND mod 60))%string.
Proof. unfold iso8601. now rewrite ord2ymd_eta. Qed.

Lemma iso8601_length t : String.length (iso8601 t) = 15%nat.
Proof. rewrite iso8601_eq. rewrite !app_length_s, !pad_length. reflexivity. Qed.

(** the time stamp determines the second *)
Lemma iso8601_inj t u : dt_ok t = true -> dt_ok u = true -> iso8601 t = iso8601 u -> t / SECOND = u / SECOND.
Proof.
  intros Ht Hu E. apply dt_ok_date in Ht, Hu. rewrite !iso8601_eq in E.
  apply app_inj_s in E as [Y E]; [|now rewrite !pad_length].
  apply app_inj_s in E as [M E]; [|now rewrite !pad_length].
  apply app_inj_s in E as [D E]; [|now rewrite !pad_length].
  apply app_inv_head_s in E.
  apply app_inj_s in E as [H E]; [|now rewrite !pad_length].
  apply app_inj_s in E as [Mi S]; [|now rewrite !pad_length].
  assert (YR : forall x, 1 <= dt_date x <= MAXORD -> 0 <= year_of (dt_date x) < 10 ^ Z.of_nat 4).
  { intros x Hx. pose proof (year_ge1 (dt_date x)). pose proof (proj2 (year_le_iff (dt_date x) ltac:(lia)) ltac:(lia)).
    unfold MAXYEAR in *. change (10 ^ Z.of_nat 4) with 10000. lia. }
  assert (MR : forall x, 1 <= dt_date x <= MAXORD -> 0 <= month_of (dt_date x) < 10 ^ Z.of_nat 2).
  { intros x Hx. pose proof (month_range (dt_date x)). change (10 ^ Z.of_nat 2) with 100. lia. }
  assert (DR : forall x, 1 <= dt_date x <= MAXORD -> 0 <= day_of (dt_date x) < 10 ^ Z.of_nat 2).
  { intros x Hx. pose proof (day_range (dt_date x)). pose proof (dim_range (year_of (dt_date x)) (month_of (dt_date x))).
    change (10 ^ Z.of_nat 2) with 100. lia. }
  assert (TR : forall x, 0 <= dt_time x < DAY) by (intros x; apply dt_time_range).
  apply pad_inj in Y; [|now apply YR|now apply YR].
  apply pad_inj in M; [|now apply MR|now apply MR].
  apply pad_inj in D; [|now apply DR|now apply DR].
  pose proof (TR t) as T1. pose proof (TR u) as T2.
  apply pad_inj in H; [|change (10 ^ Z.of_nat 2) with 100; unfold SECOND, DAY in *; lia|change (10 ^ Z.of_nat 2) with 100; unfold SECOND, DAY in *; lia].
  apply pad_inj in Mi; [|change (10 ^ Z.of_nat 2) with 100; lia|change (10 ^ Z.of_nat 2) with 100; lia].
  apply pad_inj in S; [|change (10 ^ Z.of_nat 2) with 100; lia|change (10 ^ Z.of_nat 2) with 100; lia].
  assert (DD : dt_date t = dt_date u).
  { rewrite <- (ord_roundtrip (dt_date t)), <- (ord_roundtrip (dt_date u)) by lia. congruence. }
  assert (SS : dt_time t / SECOND = dt_time u / SECOND).
  { set (a := dt_time t / SECOND) in *. set (b := dt_time u / SECOND) in *. lia. }
  rewrite <- (combine_split t), <- (combine_split u). rewrite DD.
  unfold combine, DAY, SECOND in *. lia.
Qed.

Lemma generated_inj cf t n u m : generated_id cf t n = generated_id cf u m -> iso8601 t = iso8601 u /\ n = m.
Proof.
  unfold generated_id. intros E. apply app_inj_s in E as [E1 E]; [|now rewrite !iso8601_length].
  split; [exact E1|]. apply app_inv_head_s, app_inv_head_s, app_inv_head_s in E.
  apply dec_inj. eapply app_inv_tail_s. exact E.
Qed.

(** ** what an operation can put into the storage *)
Definition import_uids (vs : list vevent) : list string :=
  flat_map (fun v => match v_uid v with Some u => [u] | None => [] end) vs.

Definition explicit_ids (o : op) : list string :=
  match o with
  | OCreate (Some u) _ _ => [u]
  | OImport _ (Ok (Some vs)) _ _ _ => import_uids vs
  | _ => []
  end.

Definition auto_time (o : op) : list Z :=
  match o with
  | OCreate None _ t | OAttendeeCreate _ _ t => [t]
  | _ => []
  end.

Lemma create_store (Q : dict nat -> Prop) cf s u sp now : (forall d r, Q d -> Q (dset d u r)) ->
  Q (sys_store s) -> Q (sys_store (sst (create_event cf s (Some u) sp now))).
Proof.
  intros H Hs. destruct (create_spec cf s (Some u) sp now) as [(r & e & -> & _)|(-> & _)]; [|exact Hs].
  unfold sst. cbn. auto.
Qed.

Lemma create_auto_store (Q : dict nat -> Prop) cf s sp now :
  (forall d r, d = sys_store s -> Q d -> Q (dset d (generated_id cf now (List.length d)) r)) ->
  Q (sys_store s) -> Q (sys_store (sst (create_event cf s None sp now))).
Proof.
  intros H Hs. destruct (create_spec cf s None sp now) as [(r & e & -> & _)|(-> & _)]; [|exact Hs].
  unfold sst. cbn. auto.
Qed.

Lemma on_event_store s r f : sys_store (sst (on_event s r f)) = sys_store s.
Proof. unfold on_event. destruct (f (obj s r)) as [[e n] x]. reflexivity. Qed.

Lemma import_one_store (Q : dict nat -> Prop) cf s c known v :
  (forall d u r, v_uid v = Some u -> Q d -> Q (dset d u r)) ->
  Q (sys_store s) -> Q (sys_store (sst (import_one cf s c known v))).
Proof.
  intros H Hs. assert (TT : T_trans (fun _ _ s => Q (sys_store s))) by (intros ? ? ? ? ? _ X; exact X).
  unfold import_one. destruct (v_uid v) as [uid|]; [|exact Hs]. destruct (str_in uid known).
  - assert (X : Q (sys_store (sst (import_existing cf s c uid v)))).
    { unfold import_existing. rewrite sbind_slift. destruct (get_event s uid) as [r| |]; try exact Hs.
      rewrite sbind_slift. destruct (import_spec _ _ _ v) as [sp| |]; try exact Hs.
      rewrite sbind_slift. destruct (will_modify sp (obj s r)) as [[|]| |]; try exact Hs.
      apply (sbind_T (fun _ _ s => Q (sys_store s)) _ _ s TT); [now rewrite on_event_store|].
      intros [] _. unfold sst at 1. cbn [fst]. now rewrite on_event_store. }
    apply (sbind_T (fun _ _ s => Q (sys_store s)) _ _ s TT); [exact X|]. intros [] _. exact X.
  - destruct (has_event s uid); [exact Hs|].
    assert (X : Q (sys_store (sst (import_new cf s c uid v)))).
    { unfold import_new. rewrite sbind_slift. destruct (import_spec _ _ _ v) as [sp| |]; try exact Hs.
      assert (Y : Q (sys_store (sst (create_event cf s (Some uid) sp 0)))) by (apply create_store; auto).
      apply (sbind_T (fun _ _ s => Q (sys_store s)) _ _ s TT); [exact Y|]. intros r _. exact Y. }
    apply (sbind_T (fun _ _ s => Q (sys_store s)) _ _ s TT); [exact X|]. intros [] _. exact X.
Qed.

Lemma import_loop_store (Q : dict nat -> Prop) cf c known l :
  (forall d u r, In u (import_uids l) -> Q d -> Q (dset d u r)) ->
  forall s, Q (sys_store s) -> Q (sys_store (sst (import_loop cf s c known l))).
Proof.
  assert (TT : T_trans (fun _ _ s => Q (sys_store s))) by (intros ? ? ? ? ? _ X; exact X).
  induction l as [|v l IH]; intros H s Hs; [exact Hs|]. cbn [import_loop].
  assert (X : Q (sys_store (sst (import_one cf s c known v)))).
  { apply import_one_store; [|exact Hs]. intros d u r V. apply H. unfold import_uids. cbn [flat_map]. rewrite V. now left. }
  apply (sbind_T (fun _ _ s => Q (sys_store s)) _ _ s TT); [exact X|]. intros uid _.
  assert (Y : Q (sys_store (sst (import_loop cf (sst (import_one cf s c known v)) c known l)))).
  { apply IH; [|exact X]. intros d u r Hu. apply H. unfold import_uids. cbn [flat_map]. apply in_or_app. now right. }
  apply (sbind_T (fun _ _ s => Q (sys_store s)) _ _ s TT); [exact Y|]. intros uids _. exact Y.
Qed.

Lemma delete_loop_store (Q : dict nat -> Prop) : (forall d u, Q d -> Q (drem d u)) ->
  forall l s, Q (sys_store s) -> Q (sys_store (sst (delete_loop s l))).
Proof.
  intros H. assert (TT : T_trans (fun _ _ s => Q (sys_store s))) by (intros ? ? ? ? ? _ X; exact X).
  assert (DE : forall s r, Q (sys_store s) -> Q (sys_store (sst (delete_event s r)))).
  { intros s r Hs. unfold delete_event, ddel. destruct (dget _ _); [|exact Hs]. unfold sst. cbn. auto. }
  induction l as [|u l IH]; intros s Hs; [exact Hs|]. cbn [delete_loop]. rewrite sbind_slift.
  destruct (get_event s u) as [r| |]; try exact Hs.
  apply (sbind_T (fun _ _ s => Q (sys_store s)) _ _ s TT); [now apply DE|]. intros [] _. apply IH. now apply DE.
Qed.

(** does the operation delete? *)
Definition deletes (o : op) : Prop :=
  match o with ODelete _ => True | OImport _ _ _ _ sync => sync = true | _ => False end.

Lemma step_store (Q : dict nat -> Prop) cf s o :
  (forall d u r, In u (explicit_ids o) -> Q d -> Q (dset d u r)) ->
  (forall d u, deletes o -> Q d -> Q (drem d u)) ->
  (forall d r t, In t (auto_time o) -> d = sys_store s -> Q d -> Q (dset d (generated_id cf t (List.length d)) r)) ->
  Q (sys_store s) -> Q (sys_store (sst (step cf s o))).
Proof.
  intros H1 H2 H3 Hs. assert (TT : T_trans (fun _ _ s => Q (sys_store s))) by (intros ? ? ? ? ? _ X; exact X).
  destruct o; cbn [step explicit_ids auto_time deletes] in *; rewrite ?drop_sst, ?on_event_store; try exact Hs.
  - destruct uid as [u|].
    + apply create_store; [|exact Hs]. intros d r. apply H1. now left.
    + apply create_auto_store; [|exact Hs]. intros d r. apply H3. now left.
  - apply create_auto_store; [|exact Hs]. intros d r'. apply H3. now left.
  - unfold delete_event, ddel. destruct (dget _ _); [|exact Hs]. unfold sst. cbn. auto.
  - unfold add_attendee. destruct a; exact Hs.
  - unfold remove_attendee. destruct (let* i := attendee_id a in _); exact Hs.
  - unfold import_cal. rewrite sbind_slift. destruct (cal_events s c p cr) as [evs| |]; try exact Hs.
    rewrite sbind_slift. destruct parsed as [[vs|]| |]; try exact Hs.
    assert (X := import_loop_store Q cf c (nodup string_dec (map e_uid evs)) vs H1 s Hs).
    apply (sbind_T (fun _ _ s => Q (sys_store s)) _ _ s TT); [exact X|]. intros uids _.
    destruct sync; [|exact X]. apply delete_loop_store; [|exact X]. intros d u. now apply H2.
Qed.

(** ** freshness *)
(** an id the storage could not have generated *)
Definition foreign (cf : config) (u : string) : Prop := forall t n, u <> generated_id cf t n.

(** no deletions *)
Definition only_adds (cf : config) (o : op) : Prop :=
  ~ deletes o /\ Forall (foreign cf) (explicit_ids o).

Definition ids_below (cf : config) (d : dict nat) : Prop :=
  forall u, In u (dkeys d) -> foreign cf u \/ exists t n, u = generated_id cf t n /\ (n < List.length d)%nat.

Lemma ids_below_dset cf d u r : ids_below cf d ->
  (foreign cf u \/ exists t, u = generated_id cf t (List.length d) /\ dget d u = None) -> ids_below cf (dset d u r).
Proof.
  intros H O v Hv. apply dset_keys in Hv as [->|Hv].
  - destruct O as [O|(t & -> & N)]; [now left|]. right. exists t, (List.length d). split; [reflexivity|].
    rewrite dset_length_new by exact N. lia.
  - destruct (H v Hv) as [F|(t & n & -> & L)]; [now left|]. right. exists t, n. split; [reflexivity|].
    pose proof (dset_length d u r). lia.
Qed.

Lemma ids_below_fresh cf d t : ids_below cf d -> dget d (generated_id cf t (List.length d)) = None.
Proof.
  intros H. apply dget_none. intros X. destruct (H _ X) as [F|(t' & n & E & L)].
  - now apply (F t (List.length d)).
  - apply generated_inj in E as [_ E]. lia.
Qed.

Lemma path_ids_below cf s : path cf (fun _ o => only_adds cf o) s -> ids_below cf (sys_store s).
Proof.
  intros H. induction H as [|s o _ IH [ND F]]; [intros u []|].
  apply (step_store (ids_below cf)); [| | |exact IH].
  - intros d u r Hu Hd. apply ids_below_dset; [exact Hd|]. left. now apply (proj1 (Forall_forall _ _) F).
  - intros d u X. contradiction.
  - intros d r t _ -> Hd. apply ids_below_dset; [exact Hd|]. right. exists t. split; [reflexivity|]. now apply ids_below_fresh.
Qed.

(** deletions allowed, but the clock has advanced by a second between any two
    events created without an id; [ts] are the times of those *)
Definition newer (t : Z) (ts : list Z) : Prop :=
  dt_ok t = true /\ forall u, In u ts -> u / SECOND < t / SECOND.

Inductive timed (cf : config) : system -> list Z -> Prop :=
| timed_init : timed cf init []
| timed_step s ts o : timed cf s ts -> Forall (foreign cf) (explicit_ids o) ->
    (forall t, In t (auto_time o) -> newer t ts) -> timed cf (sst (step cf s o)) (auto_time o ++ ts).

Definition ids_from (cf : config) (ts : list Z) (d : dict nat) : Prop :=
  forall u, In u (dkeys d) -> foreign cf u \/ exists t n, u = generated_id cf t n /\ In t ts.

Lemma timed_ids cf s ts : timed cf s ts -> ids_from cf ts (sys_store s) /\ (forall t, In t ts -> dt_ok t = true).
Proof.
  induction 1 as [|s ts o _ [IH1 IH2] F N]; [split; [intros u []|intros t []]|].
  split.
  - apply (step_store (ids_from cf (auto_time o ++ ts))).
    + intros d u r Hu Hd v Hv. apply dset_keys in Hv as [->|Hv]; [|now apply Hd].
      left. now apply (proj1 (Forall_forall _ _) F).
    + intros d u _ Hd v Hv. apply Hd. now apply drem_in in Hv.
    + intros d r t Ht _ Hd v Hv. apply dset_keys in Hv as [->|Hv]; [|now apply Hd].
      right. exists t, (List.length d). split; [reflexivity|]. apply in_or_app. now left.
    + intros v Hv. destruct (IH1 v Hv) as [X|(t & n & E & Ht)]; [now left|]. right. exists t, n. split; [exact E|].
      apply in_or_app. now right.
  - intros t Ht. apply in_app_or in Ht as [Ht|Ht]; [|auto]. now apply N.
Qed.

Lemma timed_fresh cf s ts t n : timed cf s ts -> newer t ts -> dget (sys_store s) (generated_id cf t n) = None.
Proof.
  intros H [Ht N]. destruct (timed_ids cf s ts H) as [I O]. apply dget_none. intros X.
  destruct (I _ X) as [F|(t' & n' & E & L)]; [now apply (F t n)|].
  apply generated_inj in E as [E _]. apply iso8601_inj in E; [|exact Ht|auto]. specialize (N t' L). lia.
Qed.

(** a fresh id replaces nothing *)
Lemma fresh_create cf s sp now : dget (sys_store s) (generated_id cf now (List.length (sys_store s))) = None ->
  forall u r, get_event s u = Ok r -> get_event (sst (create_event cf s None sp now)) u = Ok r.
Proof.
  intros F u r. unfold get_event. destruct (create_spec cf s None sp now) as [(r' & e & -> & _)|(-> & _)]; [|auto].
  unfold sst. cbn. rewrite dget_dset.
  destruct (String.eqb_spec u (generated_id cf now (List.length (sys_store s)))) as [->|NE]; [|auto].
  rewrite F. discriminate.
Qed.
