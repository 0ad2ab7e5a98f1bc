(** Facts about dictionaries and about single events. *)
From Verif Require Import Base PyDate DateFacts Recurrent CalTime TimeProofs Event Storage QueryProofs.
From Coq Require Import ZifyBool.
Ltac Zify.zify_post_hook ::= Z.div_mod_to_equations.
Local Opaque ord2ymd year_of month_of day_of ymd2ord days_in_month is_leap.

(** * Dictionaries *)
Lemma dget_dset {V} (d : dict V) k v k' :
  dget (dset d k v) k' = if String.eqb k' k then Some v else dget d k'.
Proof.
  induction d as [|[a b] d IH]; cbn; [reflexivity|].
  destruct (String.eqb_spec k a) as [->|N]; cbn.
  - destruct (String.eqb k' a); reflexivity.
  - rewrite IH. destruct (String.eqb_spec k' a) as [->|N2]; [|reflexivity].
    destruct (String.eqb_spec a k); [congruence|reflexivity].
Qed.

Lemma dset_same {V} (d : dict V) k v : dget d k = Some v -> dset d k v = d.
Proof.
  induction d as [|[a b] d IH]; cbn; [discriminate|].
  destruct (String.eqb_spec k a) as [->|N]; [intros E; injection E as ->; reflexivity|].
  intros E. now rewrite IH.
Qed.

Lemma dget_in {V} (d : dict V) k v : dget d k = Some v -> In (k, v) d.
Proof.
  induction d as [|[a b] d IH]; cbn; [discriminate|].
  destruct (String.eqb_spec k a) as [->|N]; [intros E; injection E as ->; now left|]. intros E. right; auto.
Qed.

Lemma in_dget {V} (d : dict V) k v : NoDup (dkeys d) -> In (k, v) d -> dget d k = Some v.
Proof.
  induction d as [|[a b] d IH]; cbn; [intros _ []|]. intros N. inversion N as [|? ? N1 N2]; subst.
  intros [E|H].
  - injection E as -> ->. now rewrite String.eqb_refl.
  - destruct (String.eqb_spec k a) as [->|NE]; [|now apply IH].
    exfalso. apply N1. change a with (fst (a, v)). now apply in_map.
Qed.

Lemma dget_none {V} (d : dict V) k : dget d k = None <-> ~ In k (dkeys d).
Proof.
  induction d as [|[a b] d IH]; cbn; [tauto|]. destruct (String.eqb_spec k a) as [->|N].
  - split; [discriminate|]. intros H. exfalso. apply H. now left.
  - rewrite IH. split; intros H; [intros [X|X]; [congruence|auto]|auto].
Qed.

Lemma dget_some {V} (d : dict V) k : (exists v, dget d k = Some v) <-> In k (dkeys d).
Proof.
  destruct (dget d k) as [v|] eqn:E.
  - split; [|eauto]. intros _. destruct (in_dec string_dec k (dkeys d)) as [H|H]; [exact H|].
    apply dget_none in H. congruence.
  - split; [intros [v X]; discriminate|]. intros H. apply dget_none in E. contradiction.
Qed.

Lemma dset_keys {V} (d : dict V) k v x : In x (dkeys (dset d k v)) <-> x = k \/ In x (dkeys d).
Proof.
  rewrite <- !dget_some, dget_dset. destruct (String.eqb_spec x k) as [->|N]; [|tauto].
  split; [auto|]. intros _. eauto.
Qed.

Lemma dset_nodup {V} (d : dict V) k v : NoDup (dkeys d) -> NoDup (dkeys (dset d k v)).
Proof.
  induction d as [|[a b] d IH]; cbn; [intros _; repeat constructor; intros []|].
  intros N. inversion N as [|? ? N1 N2]; subst. destruct (String.eqb_spec k a) as [->|NE]; cbn; [exact N|].
  constructor; [|now apply IH]. intros H. apply dset_keys in H as [H|H]; [congruence|contradiction].
Qed.

Lemma drem_in {V} (d : dict V) k x : In x (dkeys (drem d k)) -> In x (dkeys d).
Proof.
  induction d as [|[a b] d IH]; cbn; [auto|]. destruct (String.eqb k a); cbn; [auto|]. intros [H|H]; auto.
Qed.

Lemma drem_nodup {V} (d : dict V) k : NoDup (dkeys d) -> NoDup (dkeys (drem d k)).
Proof.
  induction d as [|[a b] d IH]; cbn; [auto|]. intros N. inversion N as [|? ? N1 N2]; subst.
  destruct (String.eqb k a); cbn; [exact N2|]. constructor; [|now apply IH]. intros H. now apply drem_in in H.
Qed.

Lemma dget_drem {V} (d : dict V) k k' : NoDup (dkeys d) ->
  dget (drem d k) k' = if String.eqb k' k then None else dget d k'.
Proof.
  induction d as [|[a b] d IH]; cbn; intros N.
  - now destruct (String.eqb k' k).
  - inversion N as [|? ? N1 N2]; subst. specialize (IH N2). destruct (String.eqb_spec k a) as [E|NE]; cbn.
    + rewrite E. clear IH. destruct (String.eqb_spec k' a) as [X|N']; [|reflexivity]. rewrite X. now apply dget_none.
    + rewrite IH. destruct (String.eqb_spec k' a) as [->|N']; [|reflexivity].
      destruct (String.eqb_spec a k); [congruence|reflexivity].
Qed.

Lemma dset_length_new {V} (d : dict V) k v : dget d k = None -> List.length (dset d k v) = S (List.length d).
Proof.
  induction d as [|[a b] d IH]; cbn; [reflexivity|]. destruct (String.eqb k a); [discriminate|]. intros E. cbn. now rewrite IH.
Qed.

Lemma dset_length {V} (d : dict V) k v : (List.length d <= List.length (dset d k v))%nat.
Proof.
  induction d as [|[a b] d IH]; cbn; [lia|]. destruct (String.eqb k a); cbn; lia.
Qed.

(** * What a mutator leaves alone *)
(** same event, except for participation *)
Definition same_attrs (e e' : event) : Prop :=
  e_uid e' = e_uid e /\ e_dtstart e' = e_dtstart e /\ e_duration e' = e_duration e /\ e_title e' = e_title e
  /\ e_description e' = e_description e /\ e_location e' = e_location e /\ e_status e' = e_status e
  /\ e_recurrence e' = e_recurrence e /\ e_allday e' = e_allday e /\ e_categories e' = e_categories e
  /\ e_transparent e' = e_transparent e /\ e_access e' = e_access e /\ e_document e' = e_document e
  /\ e_organizer e' = e_organizer e.

Lemma same_attrs_refl e : same_attrs e e.
Proof. repeat split. Qed.
Lemma same_attrs_trans a b c : same_attrs a b -> same_attrs b c -> same_attrs a c.
Proof. unfold same_attrs. intros H1 H2. decompose [and] H1. decompose [and] H2. repeat split; congruence. Qed.
Lemma same_attrs_state e st : same_attrs e (with_state e st).
Proof. repeat split. Qed.
Lemma same_attrs_role e ro : same_attrs e (with_role e ro).
Proof. repeat split. Qed.

(** the dictionaries of an event have no repeated keys *)
Definition dicts_ok (e : event) : Prop := NoDup (dkeys (e_state e)) /\ NoDup (dkeys (e_role e)).

Definition mev (m : mut) : event := fst (fst m).
Definition mnotes (m : mut) : list notification := snd (fst m).
Definition mres (m : mut) : res unit := snd m.

Lemma mbind_ok e n f : mbind (e, n, Ok tt) f = (mev (f e), n ++ mnotes (f e), mres (f e)).
Proof. unfold mbind, mev, mnotes, mres. destruct (f e) as [[e' n'] r']. reflexivity. Qed.

(** a property kept by both parts is kept by the sequence *)
Lemma mbind_pres (P : event -> Prop) m f : P (mev m) -> (forall e, P e -> P (mev (f e))) -> P (mev (mbind m f)).
Proof.
  destruct m as [[e n] r]. unfold mbind, mev at 1. cbn [fst]. intros H1 H2. specialize (H2 e H1).
  destruct r; try exact H1. unfold mev in *. destruct (f e) as [[e' n'] r']. exact H2.
Qed.

(** ** set_status_raw *)
Lemma set_raw_some e i s : set_status_raw e (Some i) (Some s) = (with_state e (dset (e_state e) i s), [], Ok tt).
Proof. reflexivity. Qed.

Lemma set_raw_attrs e a st : same_attrs e (mev (set_status_raw e a st)).
Proof.
  unfold set_status_raw. destruct a as [i|]; cbn [attendee_id]; [|apply same_attrs_refl].
  destruct st as [s|]; [apply same_attrs_state|].
  unfold ddel. destruct (dget (e_state e) i); [|apply same_attrs_refl].
  destruct (dget (e_role (with_state e (drem (e_state e) i))) i); cbn; repeat split.
Qed.

Lemma set_raw_dicts e a st : dicts_ok e -> dicts_ok (mev (set_status_raw e a st)).
Proof.
  intros [D1 D2]. unfold set_status_raw. destruct a as [i|]; cbn [attendee_id]; [|now split].
  destruct st as [s|]; [split; cbn; [now apply dset_nodup|exact D2]|].
  unfold ddel. destruct (dget (e_state e) i); [|now split].
  destruct (dget (e_role (with_state e (drem (e_state e) i))) i); cbn; (split; cbn; try apply drem_nodup; assumption).
Qed.

Lemma set_raw_notes e a st : mnotes (set_status_raw e a st) = [].
Proof.
  unfold set_status_raw. destruct a as [i|]; [|reflexivity]. cbn [attendee_id]. destruct st; [reflexivity|].
  unfold ddel. destruct (dget (e_state e) i); [|reflexivity].
  destruct (dget (e_role (with_state e (drem (e_state e) i))) i); reflexivity.
Qed.

Lemma set_raw_none e i : dicts_ok e -> dget (e_state e) i <> None -> dget (e_role e) i <> None ->
  set_status_raw e (Some i) None = (with_role (with_state e (drem (e_state e) i)) (drem (e_role e) i), [], Ok tt).
Proof.
  intros [D1 D2] S R. unfold set_status_raw, ddel. cbn [attendee_id].
  destruct (dget (e_state e) i); [|congruence]. cbn [e_role with_state].
  destruct (dget (e_role e) i); [|congruence]. reflexivity.
Qed.

(** ** set_role *)
Lemma set_role_attrs e a ro : same_attrs e (mev (set_role e a ro)).
Proof. unfold set_role. destruct (str_in ro roles), a; apply same_attrs_refl || apply same_attrs_role. Qed.
Lemma set_role_dicts e a ro : dicts_ok e -> dicts_ok (mev (set_role e a ro)).
Proof.
  intros [D1 D2]. unfold set_role. destruct (str_in ro roles), a; cbn; try (now split).
  split; cbn; [exact D1|now apply dset_nodup].
Qed.
Lemma set_role_notes e a ro : mnotes (set_role e a ro) = [].
Proof. unfold set_role. destruct (str_in ro roles), a; reflexivity. Qed.
Lemma set_role_state e a ro : e_state (mev (set_role e a ro)) = e_state e.
Proof. unfold set_role. destruct (str_in ro roles), a; reflexivity. Qed.

(** ** set_status *)
Lemma opt_str_eqb_refl a : opt_str_eqb a a = true.
Proof. now apply opt_str_eqb_eq. Qed.

Definition known_status (st : option string) : Prop :=
  match st with None => True | Some s => In s statuses end.

Lemma set_status_eq e i st : known_status st -> dget (e_state e) i <> st ->
  set_status e (Some i) st = mbind (set_status_raw e (Some i) st)
    (fun e' => (e', [NParticipation (e_uid e') i (dget (e_state e) i) st], Ok tt)).
Proof.
  intros K N. unfold set_status.
  replace (match st with None => true | Some s => str_in s statuses end) with true
    by (destruct st; [symmetry; now apply str_in_iff|reflexivity]).
  unfold get_status. cbn [attendee_id rbind].
  destruct (opt_str_eqb (dget (e_state e) i) st) eqn:E; [apply opt_str_eqb_eq in E; contradiction|reflexivity].
Qed.

Lemma set_status_same e i st : known_status st -> dget (e_state e) i = st ->
  set_status e (Some i) st = (e, [], Ok tt).
Proof.
  intros K <-. unfold set_status.
  replace (match dget (e_state e) i with None => true | Some s => str_in s statuses end) with true
    by (destruct (dget (e_state e) i); [symmetry; now apply str_in_iff|reflexivity]).
  unfold get_status. cbn [attendee_id rbind]. now rewrite opt_str_eqb_refl.
Qed.

Lemma set_status_unknown e a s : ~ In s statuses -> set_status e a (Some s) = (e, [], Raise AssertionError).
Proof.
  intros N. unfold set_status. destruct (str_in s statuses) eqn:E; [|reflexivity].
  apply str_in_iff in E. contradiction.
Qed.

Lemma set_status_nobody e st : known_status st -> set_status e None st = (e, [], Raise AttributeError).
Proof.
  intros K. unfold set_status.
  replace (match st with None => true | Some s => str_in s statuses end) with true
    by (destruct st; [symmetry; now apply str_in_iff|reflexivity]). reflexivity.
Qed.

Lemma known_dec st : known_status st \/ ~ known_status st.
Proof. destruct st as [s|]; [|left; exact I]. destruct (in_dec string_dec s statuses); [left|right]; assumption. Qed.

(** the four ways a call can go *)
Lemma set_status_cases e a st :
  let m := set_status e a st in
  (m = (e, [], Raise AssertionError) /\ ~ known_status st)
  \/ (m = (e, [], Raise AttributeError) /\ a = None /\ known_status st)
  \/ (exists i, a = Some i /\ m = (e, [], Ok tt) /\ known_status st /\ dget (e_state e) i = st)
  \/ (exists i, a = Some i /\ known_status st /\ dget (e_state e) i <> st
       /\ m = mbind (set_status_raw e (Some i) st)
                (fun e' => (e', [NParticipation (e_uid e') i (dget (e_state e) i) st], Ok tt))).
Proof.
  cbv zeta. destruct (known_dec st) as [K|K].
  - destruct a as [i|]; [|right; left; split; [now apply set_status_nobody|auto]].
    right; right. destruct (opt_str_eqb (dget (e_state e) i) st) eqn:E.
    + apply opt_str_eqb_eq in E. left. exists i. split; [reflexivity|]. split; [now apply set_status_same|auto].
    + assert (N : dget (e_state e) i <> st) by (intros X; apply opt_str_eqb_eq in X; congruence).
      right. exists i. split; [reflexivity|]. split; [exact K|]. split; [exact N|]. now apply set_status_eq.
  - left. destruct st as [s|]; [|exfalso; apply K; exact I]. split; [now apply set_status_unknown|exact K].
Qed.

Lemma set_status_attrs e a st : same_attrs e (mev (set_status e a st)).
Proof.
  destruct (set_status_cases e a st) as [(-> & _)|[(-> & _)|[(i & _ & -> & _)|(i & _ & _ & _ & ->)]]];
    try apply same_attrs_refl.
  apply mbind_pres; [apply set_raw_attrs|]. intros e' H. exact H.
Qed.

Lemma set_status_dicts e a st : dicts_ok e -> dicts_ok (mev (set_status e a st)).
Proof.
  intros D. destruct (set_status_cases e a st) as [(-> & _)|[(-> & _)|[(i & _ & -> & _)|(i & _ & _ & _ & ->)]]];
    try exact D.
  apply mbind_pres; [now apply set_raw_dicts|]. intros e' H. exact H.
Qed.

(** setting a status *)
Lemma set_status_some e i s : In s statuses -> dget (e_state e) i <> Some s ->
  set_status e (Some i) (Some s)
  = (with_state e (dset (e_state e) i s), [NParticipation (e_uid e) i (dget (e_state e) i) (Some s)], Ok tt).
Proof. intros K N. rewrite set_status_eq by assumption. reflexivity. Qed.

(** removing *)
Lemma set_status_none e i : dicts_ok e -> dget (e_state e) i <> None -> dget (e_role e) i <> None ->
  set_status e (Some i) None
  = (with_role (with_state e (drem (e_state e) i)) (drem (e_role e) i),
     [NParticipation (e_uid e) i (dget (e_state e) i) None], Ok tt).
Proof. intros D S R. rewrite set_status_eq by (exact I || assumption). rewrite set_raw_none by assumption. reflexivity. Qed.

(** what happens when the participant never got a role *)
Lemma set_status_none_norole e i : dget (e_state e) i <> None -> dget (e_role e) i = None ->
  set_status e (Some i) None = (with_state e (drem (e_state e) i), [], Raise KeyError).
Proof.
  intros S R. rewrite set_status_eq by (exact I || assumption). unfold set_status_raw, ddel. cbn [attendee_id].
  destruct (dget (e_state e) i); [|congruence]. cbn [e_role with_state]. rewrite R. reflexivity.
Qed.

(** only the given attendee's status and role can change *)
Lemma set_status_others e a st j : dicts_ok e -> Some j <> a ->
  dget (e_state (mev (set_status e a st))) j = dget (e_state e) j
  /\ dget (e_role (mev (set_status e a st))) j = dget (e_role e) j.
Proof.
  intros D N. destruct (set_status_cases e a st) as [(-> & _)|[(-> & _)|[(i & _ & -> & _)|(i & -> & _ & NE & ->)]]];
    try (split; reflexivity).
  assert (JI : String.eqb j i = false) by (destruct (String.eqb_spec j i); [subst; congruence|reflexivity]).
  destruct st as [s|].
  - cbn. now rewrite dget_dset, JI.
  - destruct D as [D1 D2]. unfold set_status_raw, ddel. cbn [attendee_id].
    destruct (dget (e_state e) i) eqn:S; [|congruence]. cbn [e_role with_state].
    destruct (dget (e_role e) i) eqn:R; cbn; rewrite ?dget_drem by assumption; rewrite ?JI; auto.
Qed.

(** the outcome of a successful call *)
Lemma set_status_result e i st n r e' : dicts_ok e -> set_status e (Some i) st = (e', n, r) -> r = Ok tt ->
  dget (e_state e') i = st
  /\ n = (if opt_str_eqb (dget (e_state e) i) st then [] else [NParticipation (e_uid e) i (dget (e_state e) i) st])
  /\ (st = None -> dget (e_state e) i <> None -> dget (e_role e') i = None)
  /\ (st <> None -> e_role e' = e_role e).
Proof.
  intros D E ->. destruct (set_status_cases e (Some i) st) as [(X & _)|[(X & _)|[(j & J & X & _ & S)|(j & J & K & NE & X)]]];
    rewrite E in X; try discriminate X.
  - injection J as <-. injection X as -> ->. rewrite S, opt_str_eqb_refl. repeat split; auto. intros -> H. congruence.
  - injection J as <-. assert (OE : opt_str_eqb (dget (e_state e) i) st = false).
    { destruct (opt_str_eqb (dget (e_state e) i) st) eqn:Q; [apply opt_str_eqb_eq in Q; contradiction|reflexivity]. }
    rewrite OE. destruct st as [s|].
    + cbn in X. injection X as -> ->. cbn. rewrite dget_dset, String.eqb_refl. repeat split. discriminate.
    + destruct (dget (e_role e) i) eqn:R.
      * rewrite set_raw_none in X by (assumption || congruence). cbn in X. injection X as -> ->. cbn.
        destruct D as [D1 D2]. rewrite !dget_drem, String.eqb_refl by assumption. repeat split. congruence.
      * rewrite (set_status_none_norole e i NE R) in E. discriminate E.
Qed.

(** ** invite *)
Lemma invite_step e i : dget (e_state e) i = None ->
  mbind (set_status e (Some i) (Some "NEEDS-ACTION"%string)) (fun e1 => set_role e1 (Some i) "REQ-PARTICIPANT")
  = (with_role (with_state e (dset (e_state e) i "NEEDS-ACTION"%string)) (dset (e_role e) i "REQ-PARTICIPANT"%string),
     [NParticipation (e_uid e) i None (Some "NEEDS-ACTION"%string)], Ok tt).
Proof.
  intros N. rewrite set_status_some; [|now left|congruence]. rewrite N. reflexivity.
Qed.

Lemma invite_spec l : forall e, ~ In None l -> exists e' ids,
  invite e l = (e', map (fun i => NParticipation (e_uid e) i None (Some "NEEDS-ACTION"%string)) ids, Ok tt)
  /\ same_attrs e e'
  /\ NoDup ids
  /\ (forall i, In i ids <-> In (Some i) l /\ dget (e_state e) i = None)
  /\ (forall i, dget (e_state e') i = if str_in i ids then Some "NEEDS-ACTION"%string else dget (e_state e) i)
  /\ (forall i, dget (e_role e') i = if str_in i ids then Some "REQ-PARTICIPANT"%string else dget (e_role e) i).
Proof.
  induction l as [|a l IH]; intros e NN.
  - exists e, []. cbn. split; [reflexivity|]. split; [apply same_attrs_refl|]. split; [constructor|]. split; [tauto|]. auto.
  - destruct a as [i|]; [|exfalso; apply NN; now left].
    assert (NN' : ~ In None l) by (intros H; apply NN; now right).
    cbn [invite]. unfold get_status. cbn [attendee_id rbind]. destruct (dget (e_state e) i) as [st|] eqn:S.
    + destruct (IH e NN') as (e' & ids & E & H1 & H2 & H3 & H4 & H5). exists e', ids.
      split; [exact E|]. split; [exact H1|]. split; [exact H2|]. split; [|auto].
      intros j. rewrite H3. cbn. split; [tauto|]. intros [[J|J] N]; [|auto]. injection J as <-. congruence.
    + rewrite (invite_step e i S). rewrite mbind_ok.
      set (e2 := with_role _ _).
      destruct (IH e2 NN') as (e' & ids & E & H1 & H2 & H3 & H4 & H5). rewrite E. unfold mev, mnotes, mres. cbn [fst snd].
      exists e', (i :: ids).
      assert (NI : ~ In i ids).
      { intros X. apply H3 in X as [_ X]. subst e2. cbn in X. rewrite dget_dset, String.eqb_refl in X. discriminate. }
      split; [reflexivity|]. split; [eapply same_attrs_trans; [|exact H1]; repeat split|].
      split; [constructor; assumption|]. split; [|split].
      * intros j. cbn. rewrite H3. subst e2. cbn. rewrite dget_dset.
        destruct (String.eqb_spec j i) as [->|NE].
        -- split; [intros _; split; [now left|exact S]|intros _; now left].
        -- split; [intros [X|[X Y]]; [congruence|auto]|]. intros [[X|X] Y]; [congruence|auto].
      * intros j. rewrite H4. subst e2. cbn. rewrite dget_dset. destruct (String.eqb_spec j i) as [->|NE]; cbn; [|reflexivity].
        now destruct (str_in i ids).
      * intros j. rewrite H5. subst e2. cbn. rewrite dget_dset. destruct (String.eqb_spec j i) as [->|NE]; cbn; [|reflexivity].
        now destruct (str_in i ids).
Qed.

Lemma invite_again l e e' n : invite e l = (e', n, Ok tt) -> ~ In None l -> invite e' l = (e', [], Ok tt).
Proof.
  intros E NN. destruct (invite_spec l e NN) as (e2 & ids & E2 & _ & _ & H3 & H4 & _). rewrite E in E2. injection E2 as <- ->.
  assert (ALL : forall i, In (Some i) l -> dget (e_state e') i <> None).
  { intros i Hi. rewrite H4. destruct (str_in i ids) eqn:SI; [congruence|]. intros X.
    assert (In i ids) by (apply H3; auto). apply str_in_iff in H. congruence. }
  clear -ALL NN. induction l as [|a l IH]; [reflexivity|]. cbn [invite].
  destruct a as [i|]; [|exfalso; apply NN; now left]. unfold get_status. cbn [attendee_id rbind].
  destruct (dget (e_state e') i) eqn:S; [|exfalso; now apply (ALL i (or_introl eq_refl))].
  apply IH; [intros H; apply NN; now right|]. intros j Hj. apply ALL. now right.
Qed.

Lemma invite_pres (P : event -> Prop) :
  (forall e i, P e -> dget (e_state e) i = None ->
     P (with_role (with_state e (dset (e_state e) i "NEEDS-ACTION"%string)) (dset (e_role e) i "REQ-PARTICIPANT"%string))) ->
  forall l e, P e -> P (mev (invite e l)).
Proof.
  intros H. induction l as [|a l IH]; intros e He; [exact He|]. cbn [invite].
  destruct a as [i|]; [|exact He]. unfold get_status. cbn [attendee_id rbind].
  destruct (dget (e_state e) i) eqn:S; [now apply IH|]. rewrite (invite_step e i S).
  apply mbind_pres; [cbn; now apply H|]. intros e1 H1. now apply IH.
Qed.

(** ** getAttendeeIds *)
Definition roles_known (e : event) : Prop := forall i, dget (e_state e) i <> None -> dget (e_role e) i <> None.

Lemma map_filter_nodup {A B} (g : A -> B) (f : A -> bool) l : NoDup (map g l) -> NoDup (map g (filter f l)).
Proof.
  induction l as [|x l IH]; [auto|]. cbn. intros N. inversion N as [|? ? N1 N2]; subst.
  destruct (f x); [|auto]. cbn. constructor; [|auto].
  intros H. apply N1. apply in_map_iff in H as (y & <- & Hy). apply filter_In in Hy as [Hy _]. now apply in_map.
Qed.

Lemma attendee_ids_spec e status role l : dicts_ok e -> get_attendee_ids e status role = Ok l ->
  NoDup l /\ forall i, In i l <-> exists st, dget (e_state e) i = Some st
     /\ (forall s, status = Some s -> st = s)
     /\ (forall r, role = Some r -> dget (e_role e) i = Some r).
Proof.
  intros [D1 D2] E. unfold get_attendee_ids in E.
  set (f := fun kv : string * string => _) in E.
  destruct (rfilter f (e_state e)) as [q| |] eqn:R; try discriminate. cbn [rbind] in E. injection E as <-.
  split.
  - rewrite (rfilter_is_filter _ _ _ R). apply map_filter_nodup. exact D1.
  - intros i. rewrite in_map_iff. split.
    + intros ([k st] & <- & H). apply (rfilter_in _ _ _ R) in H as [H1 B1]. cbn [fst]. exists st.
      split; [now apply in_dget|]. unfold f in B1. cbn [fst snd] in B1.
      destruct status as [s|].
      * destruct (String.eqb_spec s st) as [->|NE]; cbn [negb] in B1; [|discriminate].
        split; [intros s X; congruence|]. destruct role as [ro|]; [|discriminate].
        destruct (dget (e_role e) k) as [ro'|]; [|discriminate].
        destruct (String.eqb_spec ro ro') as [->|NE]; [|discriminate]. intros r X. congruence.
      * split; [discriminate|]. destruct role as [ro|]; [|discriminate].
        destruct (dget (e_role e) k) as [ro'|]; [|discriminate].
        destruct (String.eqb_spec ro ro') as [->|NE]; [|discriminate]. intros r X. congruence.
    + intros (st & S1 & S2 & S3). exists (i, st). split; [reflexivity|]. apply dget_in in S1 as S0.
      apply (rfilter_in _ _ _ R). split; [exact S0|]. unfold f. cbn [fst snd].
      replace (match status with Some s => negb (String.eqb s st) | None => false end) with false.
      * destruct role as [ro|]; [|reflexivity]. now rewrite (S3 ro eq_refl), String.eqb_refl.
      * destruct status as [s|]; [|reflexivity]. now rewrite (S2 s eq_refl), String.eqb_refl.
Qed.

Lemma attendee_ids_total e status role : dicts_ok e -> roles_known e \/ role = None ->
  exists l, get_attendee_ids e status role = Ok l.
Proof.
  intros [D1 _] H. unfold get_attendee_ids.
  match goal with |- context [rfilter ?f _] => destruct (rfilter_ok f (e_state e)) as [q Q] end.
  - intros [k st] Hk. cbn [fst snd].
    destruct (match status with Some s => negb (String.eqb s st) | None => false end); [eauto|].
    destruct role as [ro|]; [|eauto]. destruct H as [H|H]; [|discriminate].
    assert (S : dget (e_state e) k = Some st) by now apply in_dget.
    specialize (H k). destruct (dget (e_role e) k); [eauto|]. exfalso. apply H; congruence.
  - rewrite Q. cbn [rbind]. eauto.
Qed.

(** ** all-day adjustment *)
Lemma allday_spec e : let e' := allday_adjust e in
  e_dtstart e' = dt_date (e_dtstart e) * DAY
  /\ (e_duration e = None -> e_duration e' = Some DAY)
  /\ (forall d, e_duration e = Some d -> 0 <= d -> exists k, e_duration e' = Some (k * DAY) /\ 1 <= k /\ d <= k * DAY
        /\ forall j, 1 <= j -> d <= j * DAY -> k <= j).
Proof.
  unfold allday_adjust. destruct (e_duration e) as [d|] eqn:E; cbn.
  - split; [unfold combine; lia|]. split; [discriminate|]. intros d' X H. injection X as <-.
    unfold td_days. set (q := d / DAY) in *.
    destruct (negb (d - q * DAY =? 0) || (q =? 0)) eqn:B; eexists; (split; [reflexivity|]);
      subst q; unfold DAY in *; (split; [lia|]); (split; [lia|]); intros j J1 J2; lia.
  - split; [unfold combine; lia|]. split; [reflexivity|discriminate].
Qed.

Lemma allday_rest e : let e' := allday_adjust e in
  e_uid e' = e_uid e /\ e_title e' = e_title e
  /\ e_description e' = e_description e /\ e_location e' = e_location e /\ e_status e' = e_status e
  /\ e_recurrence e' = e_recurrence e /\ e_allday e' = e_allday e /\ e_categories e' = e_categories e
  /\ e_transparent e' = e_transparent e /\ e_access e' = e_access e /\ e_document e' = e_document e
  /\ e_organizer e' = e_organizer e /\ e_state e' = e_state e /\ e_role e' = e_role e.
Proof. cbv zeta. unfold allday_adjust. destruct (e_duration e); repeat split. Qed.

Lemma allday_again e : (forall d, e_duration e = Some d -> 0 <= d) -> allday_adjust (allday_adjust e) = allday_adjust e.
Proof.
  intros H. assert (C : forall t, combine (dt_date (combine (dt_date t) 0)) 0 = combine (dt_date t) 0).
  { intros t. unfold combine, dt_date, DAY. lia. }
  unfold allday_adjust. destruct (e_duration e) as [d|] eqn:E.
  - specialize (H d eq_refl). cbn. rewrite C. unfold with_time. cbn.
    set (k := if negb (d - td_days d * DAY =? 0) || (td_days d =? 0) then td_days d + 1 else td_days d).
    assert (K : 1 <= k). { subst k. unfold td_days, DAY. destruct (negb _ || _) eqn:B; lia. }
    assert (T : td_days (k * DAY) = k) by (unfold td_days, DAY; lia). rewrite T.
    replace (negb (k * DAY - k * DAY =? 0) || (k =? 0)) with false by lia. reflexivity.
  - cbn. rewrite C. reflexivity.
Qed.
