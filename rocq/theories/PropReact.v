(** Subscribers that act on the events they are told about. *)
From Verif Require Import Base PyDate DateFacts Recurrent CalTime TimeProofs Event Storage QueryProofs
  EventProofs React.

(** the meeting of tests/test_cal.py 24-30, and the same with a second participant *)
Definition the_meeting : event :=
  mkEvent "meeting" (combine 732046 (16 * HOUR)) (Some HOUR) "Martijn's Meeting" "" "" "TENTATIVE" None false []
          false "PUBLIC" None (Some "martijn"%string) [("martijn", "ACCEPTED")]%string [("martijn", "CHAIR")]%string.
Definition the_party : event :=
  with_role (with_state the_meeting [("martijn", "ACCEPTED"); ("guido", "NEEDS-ACTION")]%string)
            [("martijn", "CHAIR"); ("guido", "REQ-PARTICIPANT")]%string.
(** a subscriber that only listens *)
Definition quiet : subscriber := fun _ _ => None.

(** ** The ways a call can go *)
Lemma told_cases t e a st :
  let m := set_status_told t e a st in
  (m = (e, [], Raise AssertionError) /\ ~ known_status st)
  \/ (m = (e, [], Raise AttributeError) /\ a = None /\ known_status st)
  \/ (exists i, a = Some i /\ m = (e, [], Ok tt) /\ known_status st /\ dget (e_state e) i = st)
  \/ (exists i, a = Some i /\ known_status st /\ dget (e_state e) i <> st
       /\ m = mbind (set_status_raw e (Some i) st)
                (fun e' => mbind (e', [NParticipation (e_uid e') i (dget (e_state e) i) st], Ok tt)
                             (fun e'' => t e'' (NParticipation (e_uid e') i (dget (e_state e) i) st)))).
Proof.
  cbv zeta. unfold set_status_told. destruct (known_dec st) as [K|K].
  - replace (match st with None => true | Some s => str_in s statuses end) with true
      by (destruct st; [symmetry; now apply str_in_iff|reflexivity]).
    destruct a as [i|]; [|right; left; split; [reflexivity|auto]]. right; right.
    unfold get_status. cbn [attendee_id rbind]. destruct (opt_str_eqb (dget (e_state e) i) st) eqn:E.
    + apply opt_str_eqb_eq in E. left. exists i. auto.
    + assert (N : dget (e_state e) i <> st) by (intros X; apply opt_str_eqb_eq in X; congruence).
      right. exists i. auto.
  - left. destruct st as [s|]; [|exfalso; apply K; exact I]. split; [|exact K].
    destruct (str_in s statuses) eqn:E; [|reflexivity]. apply str_in_iff in E. contradiction.
Qed.

Lemma told_some t e i s : In s statuses -> dget (e_state e) i <> Some s ->
  set_status_told t e (Some i) (Some s)
  = (let x := NParticipation (e_uid e) i (dget (e_state e) i) (Some s) in
     let m := t (with_state e (dset (e_state e) i s)) x in (mev m, x :: mnotes m, mres m)).
Proof.
  intros K N. destruct (told_cases t e (Some i) (Some s)) as [(_ & X)|[(_ & X & _)|[(j & J & _ & _ & X)|(j & J & _ & _ & ->)]]].
  - elim X. exact K.
  - discriminate X.
  - injection J as <-. contradiction.
  - injection J as <-. rewrite set_raw_some, !mbind_ok. unfold mev, mnotes, mres. cbn [fst snd]. cbv zeta.
    destruct (t _ _) as [[e' n'] r']. reflexivity.
Qed.

Lemma told_same t e i s : In s statuses -> dget (e_state e) i = Some s ->
  set_status_told t e (Some i) (Some s) = (e, [], Ok tt).
Proof.
  intros K N. destruct (told_cases t e (Some i) (Some s)) as [(_ & X)|[(_ & X & _)|[(j & J & X & _)|(j & J & _ & X & _)]]].
  - elim X. exact K.
  - discriminate X.
  - exact X.
  - injection J as <-. contradiction.
Qed.

(** * C110: subscribers that only listen *)
(** they are told everything and call nothing *)
Definition listens (sb : subscriber) : Prop := forall e x, sb e x = None.

(** what the same method does when nobody is listening *)
Definition alone (e : event) (c : call) : mut :=
  match c with
  | CStatus a st => set_status e a st
  | CRole a role => set_role e a role
  | CInvite l => invite e l
  end.

Lemma each_listens f subs : Forall listens subs -> forall e x, each f subs e x = (e, [], Ok tt).
Proof.
  induction 1 as [|sb subs H _ IH]; intros e x; cbn [each]; [reflexivity|]. rewrite H, mbind_ok, IH. reflexivity.
Qed.

Lemma told_quiet t e a st : (forall e x, t e x = (e, [], Ok tt)) -> set_status_told t e a st = set_status e a st.
Proof.
  intros T. unfold set_status_told, set_status. destruct (match st with None => true | Some s => str_in s statuses end); [|reflexivity].
  destruct (get_status e a) as [old|x|]; [|reflexivity..]. destruct (opt_str_eqb old st); [reflexivity|].
  destruct (set_status_raw e a st) as [[e' n] [u|x|]]; cbn [mbind]; [|reflexivity..].
  destruct a as [i|]; [|reflexivity]. cbn [mbind]. rewrite T. reflexivity.
Qed.

Lemma invite_quiet t l : (forall e x, t e x = (e, [], Ok tt)) -> forall e, invite_told t e l = invite e l.
Proof.
  intros T. induction l as [|a l IH]; intros e; cbn [invite_told invite]; [reflexivity|].
  destruct (get_status e a) as [[s|]|x|]; [apply IH| |reflexivity..].
  rewrite (told_quiet t _ _ _ T). destruct (mbind (set_status e a _) _) as [[e' n] [u|x|]]; cbn [mbind]; [|reflexivity..].
  rewrite IH. reflexivity.
Qed.

(** However many subscribers only listen, each of the three methods leaves the
    event, sends the notifications and has the outcome it has without them. *)
Theorem C110_listeners depth subs e c : Forall listens subs -> act (S depth) subs e c = alone e c.
Proof.
  intros H. assert (T : forall e x, tell (S depth) subs e x = (e, [], Ok tt)) by (intros; now apply each_listens).
  destruct c as [a st|a ro|l]; cbn [act perform alone].
  - now apply told_quiet.
  - reflexivity.
  - now apply invite_quiet.
Qed.
Example C110_listeners_ex :
  Forall listens [quiet; quiet]
  /\ act 1 [quiet; quiet] the_meeting (CInvite [Some "room"; Some "guido"]%string)
     = invite the_meeting [Some "room"; Some "guido"]%string
  /\ mnotes (act 1 [quiet; quiet] the_meeting (CInvite [Some "room"; Some "guido"]%string))
     = [NParticipation "meeting" "room" None (Some "NEEDS-ACTION");
        NParticipation "meeting" "guido" None (Some "NEEDS-ACTION")]%string.
Proof. split; [repeat constructor; intros e x; reflexivity|]. vm_compute. repeat split. Qed.
Print Assumptions C110_listeners.

(** * C112: what subscribers are told is an exact account *)
(** the changes of status of one participant among the notifications, in order *)
Definition changes (i : string) (l : list notification) : list (option string * option string) :=
  flat_map (fun x => match x with
                     | NParticipation _ who old new => if String.eqb who i then [(old, new)] else []
                     | _ => []
                     end) l.

(** from [a], each change starts where the last one ended and changes something, and the last one ends at [b] *)
Fixpoint leads (a : option string) (l : list (option string * option string)) (b : option string) : Prop :=
  match l with
  | [] => a = b
  | (old, new) :: r => old = a /\ new <> a /\ leads new r b
  end.

Lemma leads_app l1 : forall a b l2 c, leads a l1 b -> leads b l2 c -> leads a (l1 ++ l2) c.
Proof.
  induction l1 as [|[o n] l1 IH]; cbn [leads app]; intros a b l2 c H1 H2; [now subst|].
  destruct H1 as (H1 & H3 & H4). eauto.
Qed.
Lemma changes_app i l1 l2 : changes i (l1 ++ l2) = changes i l1 ++ changes i l2.
Proof. apply flat_map_app. Qed.

(** all notifications are about one event *)
Definition only_about (uid : string) (x : notification) : Prop :=
  match x with NParticipation u _ _ _ => u = uid | _ => False end.

(** of participant [i]'s status, the notifications [n] lead from the one before to the one after *)
Definition accounted (e : event) (n : list notification) (e' : event) (i : string) : Prop :=
  leads (dget (e_state e) i) (changes i n) (dget (e_state e') i).
(** participant [i] was there by the notifications, but is not, and has no role *)
Definition lost (e : event) (n : list notification) (e' : event) (i : string) : Prop :=
  (exists s, leads (dget (e_state e) i) (changes i n) (Some s)) /\ dget (e_state e') i = None /\ dget (e_role e') i = None.

(** what every part of a call guarantees *)
Definition good (e : event) (m : mut) : Prop :=
  dicts_ok e ->
  dicts_ok (mev m) /\ same_attrs e (mev m) /\ Forall (only_about (e_uid e)) (mnotes m)
  /\ (mres m <> Raise KeyError -> forall i, accounted e (mnotes m) (mev m) i)
  /\ (mres m = Raise KeyError ->
      exists i, lost e (mnotes m) (mev m) i /\ forall j, j <> i -> accounted e (mnotes m) (mev m) j).

Lemma good_nothing e r : r <> Raise KeyError -> good e (e, [], r).
Proof.
  intros R D. split; [exact D|]. split; [apply same_attrs_refl|]. split; [constructor|].
  split; [intros _ i; reflexivity|intros X; now elim R].
Qed.

Lemma accounted_app e n e1 n1 e2 i : accounted e n e1 i -> accounted e1 n1 e2 i -> accounted e (n ++ n1) e2 i.
Proof. unfold accounted. rewrite changes_app. apply leads_app. Qed.

Lemma good_bind e m f : good e m -> (forall e', good e' (f e')) -> good e (mbind m f).
Proof.
  intros G F D. destruct (G D) as (G1 & G2 & G3 & G4 & G5). destruct m as [[e1 n1] r1].
  unfold mev, mnotes, mres in *. cbn [fst snd] in *.
  destruct r1 as [u|x|]; cbn [mbind fst snd]; [|exact (conj G1 (conj G2 (conj G3 (conj G4 G5))))..].
  destruct (F e1 G1) as (F1 & F2 & F3 & F4 & F5). destruct (f e1) as [[e2 n2] r2]. cbn [fst snd] in *.
  split; [exact F1|]. split; [now apply same_attrs_trans with e1|].
  assert (U : e_uid e1 = e_uid e) by apply G2.
  split; [apply Forall_app; split; [exact G3|now rewrite <- U]|].
  specialize (G4 ltac:(discriminate)). split.
  - intros N i. apply accounted_app with e1; auto.
  - intros X. destruct (F5 X) as (i & ((s & L) & L1 & L2) & L3). exists i. split.
    + split; [|auto]. exists s. rewrite changes_app. apply leads_app with (dget (e_state e1) i); [apply G4|exact L].
    + intros j J. apply accounted_app with e1; auto.
Qed.

Lemma set_role_key e a ro : mres (set_role e a ro) <> Raise KeyError.
Proof. unfold set_role. destruct (str_in ro roles); [|discriminate]. destruct a; discriminate. Qed.

Lemma good_role e a ro : good e (set_role e a ro).
Proof.
  intros D. split; [now apply set_role_dicts|]. split; [apply set_role_attrs|].
  pose proof (set_role_key e a ro) as R. unfold accounted. rewrite set_role_notes, set_role_state.
  split; [constructor|]. split; [intros _ i; reflexivity|intros X; now elim R].
Qed.

Lemma told_good t e a st : (forall e x, good e (t e x)) -> good e (set_status_told t e a st).
Proof.
  intros T. destruct (told_cases t e a st) as [(-> & _)|[(-> & _)|[(i & _ & -> & _)|(i & -> & K & NE & ->)]]];
    try (apply good_nothing; discriminate).
  intros D. pose proof (set_raw_dicts e (Some i) st D) as D1. pose proof (set_raw_attrs e (Some i) st) as A1.
  pose proof (set_raw_notes e (Some i) st) as N1.
  assert (S1 : mres (set_status_raw e (Some i) st) = Raise KeyError
               /\ (exists s, dget (e_state e) i = Some s)
               /\ dget (e_role (mev (set_status_raw e (Some i) st))) i = None
               /\ (forall j, dget (e_state (mev (set_status_raw e (Some i) st))) j
                             = if String.eqb j i then None else dget (e_state e) j)
               \/ mres (set_status_raw e (Some i) st) = Ok tt
                  /\ forall j, dget (e_state (mev (set_status_raw e (Some i) st))) j
                               = if String.eqb j i then st else dget (e_state e) j).
  { destruct st as [s|].
    - right. split; [reflexivity|]. intros j. cbn. apply dget_dset.
    - unfold set_status_raw, ddel. cbn [attendee_id]. destruct (dget (e_state e) i) as [s|] eqn:E; [|now elim NE].
      cbn [e_role with_state]. destruct D. destruct (dget (e_role e) i) eqn:ER.
      + right. split; [reflexivity|]. intros j. cbn. now apply dget_drem.
      + left. split; [reflexivity|]. split; [eauto|]. split; [exact ER|]. intros j. cbn. now apply dget_drem. }
  destruct (set_status_raw e (Some i) st) as [[e1 n1] r1]. unfold mev, mnotes, mres in *. cbn [fst snd] in *. subst n1.
  destruct S1 as [(-> & (s & S0) & S2 & S1)|[-> S1]].
  - cbn [mbind fst snd]. split; [exact D1|]. split; [exact A1|]. split; [constructor|]. split; [intros X; now elim X|].
    intros _. exists i. split.
    + split; [exists s; exact S0|]. split; [|exact S2]. now rewrite S1, String.eqb_refl.
    + intros j J. unfold accounted. rewrite S1. apply String.eqb_neq in J. rewrite J. reflexivity.
  - rewrite mbind_ok. cbn [app]. set (x := NParticipation (e_uid e1) i (dget (e_state e) i) st). rewrite mbind_ok.
    destruct (T e1 x D1) as (G1 & G2 & G3 & G4 & G5). unfold mev, mnotes, mres in *. cbn [fst snd app].
    assert (U : e_uid e1 = e_uid e) by apply A1.
    split; [exact G1|]. split; [now apply same_attrs_trans with e1|].
    split; [constructor; [exact U|now rewrite <- U]|].
    assert (L : forall j b, leads (dget (e_state e1) j) (changes j (snd (fst (t e1 x)))) b ->
                leads (dget (e_state e) j) (changes j (x :: snd (fst (t e1 x)))) b).
    { intros j b. specialize (S1 j). unfold changes at 2. cbn [flat_map]. fold (changes j (snd (fst (t e1 x)))).
      unfold x at 2. destruct (String.eqb_spec i j) as [->|NJ].
      - rewrite String.eqb_refl in S1. rewrite S1. cbn [app leads]. intros G. split; [reflexivity|].
        split; [congruence|exact G].
      - destruct (String.eqb_spec j i) as [X|_]; [congruence|]. rewrite S1. auto. }
    split.
    + intros N j. apply L. now apply G4.
    + intros X. destruct (G5 X) as (j & ((s & L0) & L1 & L2) & L3). exists j. split.
      * split; [exists s; now apply L|auto].
      * intros j' J. apply L. now apply L3.
Qed.

Lemma get_status_key e a x : get_status e a = Raise x -> x <> KeyError.
Proof. destruct a; cbn; [discriminate|]. intros [= <-]. discriminate. Qed.

Lemma invite_good t l : (forall e x, good e (t e x)) -> forall e, good e (invite_told t e l).
Proof.
  intros T. induction l as [|a l IH]; intros e; cbn [invite_told]; [apply good_nothing; discriminate|].
  pose proof (get_status_key e a) as R. destruct (get_status e a) as [[s|]|x|]; [apply IH| | |].
  2: { apply good_nothing. specialize (R x eq_refl). congruence. }
  2: { apply good_nothing. discriminate. }
  apply good_bind; [|exact IH]. apply good_bind; [now apply told_good|]. intros e'. apply good_role.
Qed.

Lemma perform_good t c : (forall e x, good e (t e x)) -> forall e, good e (perform t e c).
Proof.
  intros T e. destruct c as [a st|a ro|l]; cbn [perform]; [now apply told_good|apply good_role|now apply invite_good].
Qed.

Lemma each_good f subs : (forall e c, good e (f e c)) -> forall e x, good e (each f subs e x).
Proof.
  intros F. induction subs as [|sb subs IH]; intros e x; cbn [each]; [apply good_nothing; discriminate|].
  apply good_bind; [destruct (sb e x); [apply F|apply good_nothing; discriminate]|]. intros e'. apply IH.
Qed.

Lemma tell_good subs depth : forall e x, good e (tell depth subs e x).
Proof.
  induction depth as [|d IH]; intros e x; cbn [tell]; [apply good_nothing; discriminate|].
  apply each_good. intros e' c. now apply perform_good.
Qed.

(** Whatever subscribers there are and whatever they do when told, and however
    deep that goes: for every participant the notifications sent during a call
    lead, change by change, from the status before the call to the status after
    it, even when the call fails.  Only when it fails with KeyError, one
    participant is an exception: by the notifications they are there, but they
    have neither status nor role.  Nothing but participation changes, and all
    notifications are about this event. *)
Theorem C112_account depth subs e c e' n r :
  dicts_ok e -> act depth subs e c = (e', n, r) ->
  (r <> Raise KeyError -> forall i, accounted e n e' i)
  /\ (r = Raise KeyError -> exists i, lost e n e' i /\ forall j, j <> i -> accounted e n e' j)
  /\ Forall (only_about (e_uid e)) n /\ same_attrs e e' /\ dicts_ok e'.
Proof.
  intros D E. destruct (perform_good (tell depth subs) c (tell_good subs depth) e D) as (G1 & G2 & G3 & G4 & G5).
  unfold act in E. rewrite E in *. auto.
Qed.
(** two subscribers, three changes of one participant and two of another, told in full *)
Example C112_account_ex :
  let subs := [settler (fun i => if String.eqb i "room" then "ACCEPTED" else "TENTATIVE")]%string in
  let m := act 3 subs the_party (CInvite [Some "room"; Some "bob"]%string) in
  dicts_ok the_party /\ mres m = Ok tt
  /\ changes "room" (mnotes m) = [(None, Some "NEEDS-ACTION"); (Some "NEEDS-ACTION", Some "ACCEPTED")]%string
  /\ changes "bob" (mnotes m) = [(None, Some "NEEDS-ACTION"); (Some "NEEDS-ACTION", Some "TENTATIVE")]%string
  /\ changes "guido" (mnotes m) = [].
Proof. split; [split; repeat constructor; cbn; intuition discriminate|]. vm_compute. repeat split. Qed.
Print Assumptions C112_account.

(** * C111: subscribers that settle a status *)
(** every subscriber either only listens or gives each participant the status [want] says, and one does *)
Definition settling (want : string -> string) (subs : list subscriber) : Prop :=
  Forall (fun sb => listens sb \/ sb = settler want) subs /\ In (settler want) subs.

Lemma each_settled t want subs i u o nw : In (want i) statuses ->
  Forall (fun sb => listens sb \/ sb = settler want) subs ->
  forall e, dget (e_state e) i = Some (want i) ->
  each (perform t) subs e (NParticipation u i o nw) = (e, [], Ok tt).
Proof.
  intros K. induction 1 as [|sb subs H _ IH]; intros e E; cbn [each]; [reflexivity|].
  destruct H as [H|H].
  - rewrite H, mbind_ok, (IH e E). reflexivity.
  - subst sb. cbn [settler perform]. rewrite (told_same t e i (want i) K E), mbind_ok, (IH e E). reflexivity.
Qed.

Lemma tell_settled want subs i u o nw d e : In (want i) statuses ->
  Forall (fun sb => listens sb \/ sb = settler want) subs -> dget (e_state e) i = Some (want i) ->
  tell (S d) subs e (NParticipation u i o nw) = (e, [], Ok tt).
Proof. intros K F E. cbn [tell]. now apply each_settled with want. Qed.

Lemma each_settles t want i u o nw : In (want i) statuses ->
  (forall e x, dget (e_state e) i = Some (want i) -> (exists u o nw, x = NParticipation u i o nw) -> t e x = (e, [], Ok tt)) ->
  forall subs, settling want subs -> forall e, dget (e_state e) i <> Some (want i) ->
  each (perform t) subs e (NParticipation u i o nw)
  = (with_state e (dset (e_state e) i (want i)),
     [NParticipation (e_uid e) i (dget (e_state e) i) (Some (want i))], Ok tt).
Proof.
  intros K T subs. induction subs as [|sb subs IH]; intros [F M] e E; [destruct M|]. cbn [each].
  inversion F as [|? ? H F']; subst.
  assert (C : listens sb \/ sb = settler want) by exact H. destruct C as [C|C].
  - rewrite C, mbind_ok. unfold mev, mnotes, mres. rewrite (IH); [reflexivity| |exact E]. split; [exact F'|].
    destruct M as [->|M]; [|exact M]. specialize (C e (NParticipation "" i None None)). discriminate C.
  - subst sb. cbn [settler perform]. rewrite (told_some t e i (want i) K E). cbv zeta.
    set (e1 := with_state e (dset (e_state e) i (want i))).
    assert (E1 : dget (e_state e1) i = Some (want i)) by (cbn; now rewrite dget_dset, String.eqb_refl).
    rewrite (T e1 _ E1 ltac:(eauto)). unfold mev, mnotes, mres. cbn [fst snd]. cbn [mbind].
    rewrite (each_settled t want subs i u o nw K F' e1 E1). reflexivity.
Qed.

Lemma tell_settles want subs i u o nw d e : In (want i) statuses -> settling want subs ->
  dget (e_state e) i <> Some (want i) ->
  tell (S (S d)) subs e (NParticipation u i o nw)
  = (with_state e (dset (e_state e) i (want i)),
     [NParticipation (e_uid e) i (dget (e_state e) i) (Some (want i))], Ok tt).
Proof.
  intros K S E. cbn [tell]. apply each_settles; [exact K| |exact S|exact E].
  intros e' x E' (u' & o' & nw' & ->). apply (tell_settled want); [exact K|apply S|exact E'].
Qed.

Lemma dset_dset {V} (d : dict V) k v w : dset (dset d k v) k w = dset d k w.
Proof.
  induction d as [|[a b] d IH]; cbn; [now rewrite String.eqb_refl|].
  destruct (String.eqb k a) eqn:E; cbn; [now rewrite String.eqb_refl|]. rewrite E. now rewrite IH.
Qed.

(** two steps of deliveries suffice: the status asked for is set and told, then the settled one is set and told *)
Lemma settle_status want subs d e i s : In (want i) statuses -> In s statuses -> settling want subs ->
  dget (e_state e) i <> Some s ->
  act (S (S d)) subs e (CStatus (Some i) (Some s))
  = (with_state e (dset (e_state e) i (want i)),
     NParticipation (e_uid e) i (dget (e_state e) i) (Some s)
     :: (if String.eqb s (want i) then [] else [NParticipation (e_uid e) i (Some s) (Some (want i))]), Ok tt).
Proof.
  intros K KS S N. unfold act. cbn [perform]. rewrite (told_some _ e i s KS N). cbv zeta.
  set (e1 := with_state e (dset (e_state e) i s)).
  assert (E1 : dget (e_state e1) i = Some s) by (cbn; now rewrite dget_dset, String.eqb_refl).
  destruct (String.eqb_spec s (want i)) as [->|NS].
  - rewrite (tell_settled want) by (assumption || apply S). reflexivity.
  - rewrite (tell_settles want) by (assumption || congruence). unfold mev, mnotes, mres. cbn [fst snd].
    rewrite E1. unfold e1. cbn [e_state with_state]. rewrite dset_dset. reflexivity.
Qed.

(** With subscribers that settle a status for each participant (and any that
    only listen), setting a status returns, the participant ends with the settled
    status, role and everything else stay, and exactly the changes made are told. *)
Theorem C111_status want subs depth e i s :
  (2 <= depth)%nat -> In (want i) statuses -> In s statuses -> settling want subs -> dget (e_state e) i <> Some s ->
  exists e', act depth subs e (CStatus (Some i) (Some s))
    = (e', [NParticipation (e_uid e) i (dget (e_state e) i) (Some s)]
           ++ (if String.eqb s (want i) then [] else [NParticipation (e_uid e) i (Some s) (Some (want i))]), Ok tt)
  /\ (forall j, dget (e_state e') j = if String.eqb j i then Some (want i) else dget (e_state e) j)
  /\ e_role e' = e_role e /\ same_attrs e e'.
Proof.
  intros D K KS S N. destruct depth as [|[|d]]; [lia|lia|].
  exists (with_state e (dset (e_state e) i (want i))). rewrite (settle_status want) by assumption.
  split; [reflexivity|]. split; [intros j; cbn; apply dget_dset|]. split; [reflexivity|apply same_attrs_state].
Qed.
Example C111_status_ex :
  let want := fun i => if String.eqb i "guido" then "ACCEPTED"%string else "TENTATIVE"%string in
  settling want [quiet; settler want; settler want]
  /\ act 2 [quiet; settler want; settler want] the_party (CStatus (Some "guido") (Some "DECLINED"))%string
     = (with_state the_party [("martijn", "ACCEPTED"); ("guido", "ACCEPTED")]%string,
        [NParticipation "meeting" "guido" (Some "NEEDS-ACTION") (Some "DECLINED");
         NParticipation "meeting" "guido" (Some "DECLINED") (Some "ACCEPTED")]%string, Ok tt).
Proof.
  cbv zeta. split; [|vm_compute; reflexivity].
  split; [constructor; [left; intros e x; reflexivity|repeat constructor; now right]|right; now left].
Qed.
Print Assumptions C111_status.

(** the notifications about one newly invited participant *)
Definition invited_and_settled (uid : string) (want : string -> string) (i : string) : list notification :=
  [NParticipation uid i None (Some "NEEDS-ACTION"%string)]
  ++ (if String.eqb "NEEDS-ACTION" (want i) then []
      else [NParticipation uid i (Some "NEEDS-ACTION"%string) (Some (want i))]).

(** Inviting with such subscribers, as tests/test_cal.py does for a room: it
    returns, everybody newly invited ends with the settled status and as a
    required participant, those who took part before keep status and role. *)
Theorem C111_invite want subs depth l : (2 <= depth)%nat -> (forall i, In (want i) statuses) -> settling want subs ->
  forall e, ~ In None l -> exists e' ids,
  act depth subs e (CInvite l) = (e', flat_map (invited_and_settled (e_uid e) want) ids, Ok tt)
  /\ NoDup ids /\ (forall i, In i ids <-> In (Some i) l /\ dget (e_state e) i = None)
  /\ (forall i, dget (e_state e') i = if str_in i ids then Some (want i) else dget (e_state e) i)
  /\ (forall i, dget (e_role e') i = if str_in i ids then Some "REQ-PARTICIPANT"%string else dget (e_role e) i)
  /\ same_attrs e e'.
Proof.
  intros D K S. destruct depth as [|[|d]]; [lia|lia|]. unfold act. cbn [perform].
  induction l as [|a l IH]; intros e NN.
  - exists e, []. cbn. split; [reflexivity|]. split; [constructor|]. split; [tauto|]. repeat split.
  - destruct a as [i|]; [|exfalso; apply NN; now left].
    assert (NN' : ~ In None l) by (intros H; apply NN; now right).
    cbn [invite_told]. unfold get_status. cbn [attendee_id rbind]. destruct (dget (e_state e) i) as [st|] eqn:ST.
    + destruct (IH e NN') as (e' & ids & E & H1 & H2 & H3 & H4 & H5). exists e', ids.
      split; [exact E|]. split; [exact H1|]. split; [|auto].
      intros j. rewrite H2. cbn. split; [tauto|]. intros [[J|J] N]; [|auto]. injection J as <-. congruence.
    + pose proof (settle_status want subs d e i "NEEDS-ACTION" (K i) ltac:(now left) S ltac:(congruence)) as P.
      unfold act in P. cbn [perform] in P. rewrite P. clear P. rewrite ST.
      set (e1 := with_state e (dset (e_state e) i (want i))).
      assert (R : set_role e1 (Some i) "REQ-PARTICIPANT"
                  = (with_role e1 (dset (e_role e) i "REQ-PARTICIPANT"%string), [], Ok tt)) by reflexivity.
      rewrite mbind_ok, R. unfold mev, mnotes, mres. cbn [fst snd]. rewrite app_nil_r, mbind_ok.
      set (e2 := with_role e1 _).
      destruct (IH e2 NN') as (e' & ids & E & H1 & H2 & H3 & H4 & H5). rewrite E. unfold mev, mnotes, mres. cbn [fst snd].
      exists e', (i :: ids).
      assert (NI : ~ In i ids).
      { intros X. apply H2 in X as [_ X]. subst e2 e1. cbn in X. rewrite dget_dset, String.eqb_refl in X. discriminate. }
      split; [reflexivity|]. split; [now constructor|]. split; [|split; [|split]].
      * intros j. cbn [In]. rewrite H2. subst e2 e1. cbn [e_state with_role with_state]. rewrite dget_dset.
        destruct (String.eqb_spec j i) as [->|NJ].
        -- split; [intros _; split; [now left|exact ST]|intros _; now left].
        -- split; [intros [X|[X Y]]; [congruence|split; [now right|exact Y]]|].
           intros [[X|X] Y]; [injection X as X; congruence|right; auto].
      * intros j. rewrite H3. subst e2 e1. cbn [e_state with_role with_state]. rewrite dget_dset. cbn [str_in existsb].
        destruct (String.eqb_spec j i) as [->|NJ]; [|reflexivity]. cbn [orb].
        destruct (str_in i ids) eqn:Q; [apply str_in_iff in Q; contradiction|reflexivity].
      * intros j. rewrite H4. subst e2 e1. cbn [e_role with_role with_state]. rewrite dget_dset. cbn [str_in existsb].
        destruct (String.eqb_spec j i) as [->|NJ]; [|reflexivity]. cbn [orb].
        destruct (str_in i ids) eqn:Q; [apply str_in_iff in Q; contradiction|reflexivity].
      * apply same_attrs_trans with e2; [|exact H5]. subst e2 e1. repeat split.
Qed.
(** tests/test_cal.py 20-35 *)
Example C111_invite_ex :
  settling (fun _ => "ACCEPTED"%string) [accepter]
  /\ get_status (mev (act 2 [accepter] the_meeting (CInvite [Some "room"%string]))) (Some "room"%string)
     = Ok (Some "ACCEPTED"%string)
  /\ mnotes (act 2 [accepter] the_meeting (CInvite [Some "room"; Some "martijn"; Some "room"]%string))
     = [NParticipation "meeting" "room" None (Some "NEEDS-ACTION");
        NParticipation "meeting" "room" (Some "NEEDS-ACTION") (Some "ACCEPTED")]%string.
Proof. split; [split; [repeat constructor; now right|now left]|]. vm_compute. repeat split. Qed.
Print Assumptions C111_invite.

(** With the same subscribers nobody can be removed: the participant comes back
    with the settled status but without a role, after which asking for the
    participants with a given role raises KeyError. *)
Theorem C111_removal want subs depth e i :
  (2 <= depth)%nat -> In (want i) statuses -> settling want subs -> dicts_ok e ->
  dget (e_state e) i <> None -> dget (e_role e) i <> None ->
  exists e', act depth subs e (CStatus (Some i) None)
    = (e', [NParticipation (e_uid e) i (dget (e_state e) i) None; NParticipation (e_uid e) i None (Some (want i))], Ok tt)
  /\ dget (e_state e') i = Some (want i) /\ dget (e_role e') i = None
  /\ forall role, get_attendee_ids e' None (Some role) = Raise KeyError.
Proof.
  intros D K S DO N R. destruct depth as [|[|d]]; [lia|lia|]. unfold act. cbn [perform].
  destruct (told_cases (tell (Datatypes.S (Datatypes.S d)) subs) e (Some i) None)
    as [(_ & X)|[(_ & X & _)|[(j & J & _ & _ & X)|(j & J & _ & _ & ->)]]].
  - elim X. exact I.
  - discriminate X.
  - injection J as <-. contradiction.
  - injection J as <-. rewrite set_raw_none by assumption. rewrite !mbind_ok.
    set (e1 := with_role (with_state e (drem (e_state e) i)) (drem (e_role e) i)).
    destruct DO as [D1 D2].
    assert (E1 : dget (e_state e1) i = None) by (cbn; now rewrite dget_drem, String.eqb_refl).
    rewrite (tell_settles want) by (assumption || congruence). unfold mev, mnotes, mres. cbn [fst snd app].
    rewrite E1. eexists. split; [reflexivity|].
    assert (E2 : dget (dset (e_state e1) i (want i)) i = Some (want i)) by now rewrite dget_dset, String.eqb_refl.
    assert (E3 : dget (e_role e1) i = None) by (cbn; now rewrite dget_drem, String.eqb_refl).
    split; [exact E2|]. split; [exact E3|]. intros role. unfold get_attendee_ids. cbn [e_state e_role with_state].
    change (e_role e1) with (drem (e_role e) i) in *. clearbody e1. apply dget_in in E2.
    induction (dset (e_state e1) i (want i)) as [|[k v] st IH]; [destruct E2|]. cbn [rfilter fst snd].
    destruct E2 as [E2|E2].
    + injection E2 as -> ->. rewrite E3. reflexivity.
    + specialize (IH E2). destruct (dget (drem (e_role e) i) k) as [ro|]; [|reflexivity]. cbn [rbind].
      destruct (rfilter _ st); cbn [rbind] in *; [discriminate IH|exact IH|discriminate IH].
Qed.
Example C111_removal_ex :
  let m := act 2 [accepter] the_party (CStatus (Some "guido"%string) None) in
  mev m = with_role (with_state the_meeting [("martijn", "ACCEPTED"); ("guido", "ACCEPTED")]%string)
                    [("martijn", "CHAIR")]%string
  /\ get_attendee_ids (mev m) None (Some "CHAIR"%string) = Raise KeyError
  /\ get_attendee_ids (mev m) None None = Ok ["martijn"; "guido"]%string.
Proof. vm_compute. repeat split. Qed.
Print Assumptions C111_removal.

(** * C113: who hears what *)
(** the notification tells the status the event has *)
Definition up_to_date (e : event) (x : notification) : Prop :=
  match x with NParticipation u i _ new => e_uid e = u /\ dget (e_state e) i = new | _ => False end.

Lemma told_ext t t' e a st : dicts_ok e ->
  (forall e x, dicts_ok e -> up_to_date e x -> t e x = t' e x) ->
  set_status_told t e a st = set_status_told t' e a st.
Proof.
  intros D T. unfold set_status_told. destruct (match st with None => true | Some s => str_in s statuses end); [|reflexivity].
  destruct (get_status e a) as [old|x|]; [|reflexivity..]. destruct (opt_str_eqb old st) eqn:OE; [reflexivity|].
  pose proof (set_raw_dicts e a st D) as D1. pose proof (set_raw_attrs e a st) as A1.
  destruct a as [i|]; [|reflexivity].
  assert (S1 : mres (set_status_raw e (Some i) st) = Ok tt ->
               dget (e_state (mev (set_status_raw e (Some i) st))) i = st).
  { destruct st as [s|]; [intros _; cbn; now rewrite dget_dset, String.eqb_refl|].
    unfold set_status_raw, ddel. cbn [attendee_id]. destruct (dget (e_state e) i); [|discriminate].
    cbn [e_role with_state]. destruct (dget (e_role e) i); [|discriminate]. intros _. cbn. destruct D.
    now rewrite dget_drem, String.eqb_refl. }
  destruct (set_status_raw e (Some i) st) as [[e1 n1] [u|x|]]; unfold mev, mres in *; cbn [fst snd mbind] in *; [|reflexivity..].
  destruct u. rewrite (T e1); [reflexivity|exact D1|]. cbn. auto.
Qed.

Lemma invite_ext t t' l : (forall e x, good e (t' e x)) ->
  (forall e x, dicts_ok e -> up_to_date e x -> t e x = t' e x) ->
  forall e, dicts_ok e -> invite_told t e l = invite_told t' e l.
Proof.
  intros G T. induction l as [|a l IH]; intros e D; cbn [invite_told]; [reflexivity|].
  destruct (get_status e a) as [[s|]|x|]; [now apply IH| |reflexivity..].
  rewrite (told_ext t t' e a _ D T).
  assert (P : good e (mbind (set_status_told t' e a (Some "NEEDS-ACTION"%string)) (fun e1 => set_role e1 a "REQ-PARTICIPANT"))).
  { apply good_bind; [now apply told_good|intros; apply good_role]. }
  destruct (P D) as (D1 & _). destruct (mbind (set_status_told t' e a _) _) as [[e1 n1] [u|x|]]; unfold mev in D1;
    cbn [fst mbind] in *; [|reflexivity..]. now rewrite (IH e1 D1).
Qed.

Lemma perform_ext t t' c : (forall e x, good e (t' e x)) ->
  (forall e x, dicts_ok e -> up_to_date e x -> t e x = t' e x) ->
  forall e, dicts_ok e -> perform t e c = perform t' e c.
Proof.
  intros G T e D. destruct c as [a st|a ro|l]; cbn [perform]; [now apply told_ext|reflexivity|now apply invite_ext].
Qed.

Lemma each_ext f f' subs : (forall e c, good e (f' e c)) -> (forall e c, dicts_ok e -> f e c = f' e c) ->
  forall e x, dicts_ok e -> each f subs e x = each f' subs e x.
Proof.
  intros G F. induction subs as [|sb subs IH]; intros e x D; cbn [each]; [reflexivity|].
  assert (E : match sb e x with Some c => f e c | None => (e, [], Ok tt) end
              = match sb e x with Some c => f' e c | None => (e, [], Ok tt) end)
    by (destruct (sb e x); [now apply F|reflexivity]).
  rewrite E. assert (P : good e (match sb e x with Some c => f' e c | None => (e, [], Ok tt) end))
    by (destruct (sb e x); [apply G|apply good_nothing; discriminate]).
  destruct (P D) as (D1 & _). destruct (match sb e x with Some c => f' e c | None => _ end) as [[e1 n1] [u|y|]];
    unfold mev in D1; cbn [fst mbind] in *; [|reflexivity..]. now rewrite (IH e1 x D1).
Qed.

Lemma tell_ext sb sb' subs depth :
  (forall e x, dicts_ok e -> up_to_date e x -> sb e x = sb' e x) ->
  forall e x, dicts_ok e -> up_to_date e x -> tell depth (sb :: subs) e x = tell depth (sb' :: subs) e x.
Proof.
  intros A. induction depth as [|d IH]; intros e x D U; cbn [tell]; [reflexivity|]. cbn [each]. rewrite (A e x D U).
  assert (F : forall e c, dicts_ok e -> perform (tell d (sb :: subs)) e c = perform (tell d (sb' :: subs)) e c).
  { intros e' c D'. apply perform_ext; [intros; apply tell_good|exact IH|exact D']. }
  assert (G : forall e c, good e (perform (tell d (sb' :: subs)) e c)).
  { intros e' c. apply perform_good. intros; apply tell_good. }
  assert (E : match sb' e x with Some c => perform (tell d (sb :: subs)) e c | None => (e, [], Ok tt) end
              = match sb' e x with Some c => perform (tell d (sb' :: subs)) e c | None => (e, [], Ok tt) end)
    by (destruct (sb' e x); [now apply F|reflexivity]).
  rewrite E. clear E. assert (P : good e (match sb' e x with Some c => perform (tell d (sb' :: subs)) e c | None => (e, [], Ok tt) end))
    by (destruct (sb' e x); [apply G|apply good_nothing; discriminate]).
  destruct (P D) as (D1 & _). clear P. revert D1.
  generalize (match sb' e x with Some c => perform (tell d (sb' :: subs)) e c | None => (e, [], Ok tt) end).
  intros [[e1 n1] [u|y|]] D1; unfold mev in D1; cbn [fst mbind] in *; [|reflexivity..].
  now rewrite (each_ext _ _ subs G F e1 x D1).
Qed.

(** a subscriber that makes the participant the chair when told something that is not so *)
Definition suspicious : subscriber :=
  fun e x => match x with
             | NParticipation _ i _ new =>
                 if opt_str_eqb (dget (e_state e) i) new then None else Some (CRole (Some i) "CHAIR")
             | _ => None
             end.

(** The first subscriber is only ever told what is so: how it would react to a
    notification that does not tell the present status of that event makes no
    difference to any call, whatever the other subscribers do. *)
Theorem C113_first sb sb' subs depth e c :
  (forall e x, dicts_ok e -> up_to_date e x -> sb e x = sb' e x) -> dicts_ok e ->
  act depth (sb :: subs) e c = act depth (sb' :: subs) e c.
Proof.
  intros A D. unfold act. apply perform_ext; [intros; apply tell_good|now apply tell_ext|exact D].
Qed.
(** [suspicious], put first, never finds anything; put second, it does *)
Example C113_first_ex :
  (forall e x, dicts_ok e -> up_to_date e x -> suspicious e x = quiet e x)
  /\ act 3 [suspicious; accepter] the_party (CStatus (Some "guido") (Some "DECLINED"))%string
     = act 3 [quiet; accepter] the_party (CStatus (Some "guido") (Some "DECLINED"))%string
  /\ act 3 [accepter; suspicious] the_party (CStatus (Some "guido") (Some "DECLINED"))%string
     <> act 3 [accepter; quiet] the_party (CStatus (Some "guido") (Some "DECLINED"))%string.
Proof.
  split.
  - intros e [u|u|u|u i o n] _ U; cbn in U; try contradiction. unfold suspicious. rewrite (proj2 U), opt_str_eqb_refl. reflexivity.
  - split; [vm_compute; reflexivity|]. vm_compute. discriminate.
Qed.
Print Assumptions C113_first.

(** Not so the second: after a first subscriber that settles another status, it
    is told the status asked for when the event already has the settled one, and
    the older change after the newer one. *)
Theorem C113_second want depth e i s :
  (2 <= depth)%nat -> In (want i) statuses -> In s statuses -> s <> want i -> dget (e_state e) i <> Some s ->
  mev (act depth [settler want; suspicious] e (CStatus (Some i) (Some s)))
  = with_role (with_state e (dset (e_state e) i (want i))) (dset (e_role e) i "CHAIR"%string).
Proof.
  intros D K KS NS N. destruct depth as [|[|d]]; [lia|lia|]. unfold act. cbn [perform].
  rewrite (told_some _ e i s KS N). cbv zeta. set (e1 := with_state e (dset (e_state e) i s)).
  assert (E1 : dget (e_state e1) i = Some s) by (cbn; now rewrite dget_dset, String.eqb_refl).
  set (t := tell (S d) [settler want; suspicious]).
  change (tell (S (S d)) [settler want; suspicious]) with (each (perform t) [settler want; suspicious]).
  cbn [each settler perform]. rewrite (told_some t e1 i (want i) K) by congruence. cbv zeta.
  set (e2 := with_state e1 (dset (e_state e1) i (want i))).
  assert (E2 : dget (e_state e2) i = Some (want i)) by (cbn; now rewrite dget_dset, String.eqb_refl).
  assert (T : t e2 (NParticipation (e_uid e1) i (dget (e_state e1) i) (Some (want i))) = (e2, [], Ok tt)).
  { unfold t. cbn [tell each settler perform]. rewrite (told_same _ e2 i (want i) K E2). cbn [mbind].
    unfold suspicious. rewrite E2, opt_str_eqb_refl. reflexivity. }
  rewrite T. unfold mev at 2 3 4, mnotes, mres. cbn [fst snd mbind].
  unfold suspicious at 1. rewrite E2. destruct (opt_str_eqb (Some (want i)) (Some s)) eqn:Q.
  - apply opt_str_eqb_eq in Q. congruence.
  - assert (R : set_role e2 (Some i) "CHAIR" = (with_role e2 (dset (e_role e) i "CHAIR"%string), [], Ok tt)) by reflexivity.
    cbn [perform]. rewrite R. cbn [mbind app]. unfold mev. cbn [fst].
    unfold e2, e1. cbn [e_state with_state]. rewrite dset_dset. reflexivity.
Qed.
Print Assumptions C113_second.

(** * C114: subscribers that disagree *)
(** every subscriber only listens or settles a status for [i], and two settle different ones *)
Definition disagree (i : string) (subs : list subscriber) : Prop :=
  Forall (fun sb => listens sb \/ exists w, sb = settler w /\ In (w i) statuses) subs
  /\ exists w1 w2, In (settler w1) subs /\ In (settler w2) subs /\ w1 i <> w2 i.

Lemma each_disagree t i u o nw subs :
  (forall e x, (exists u o nw, x = NParticipation u i o nw) -> mres (t e x) = OutOfFuel) ->
  Forall (fun sb => listens sb \/ exists w, sb = settler w /\ In (w i) statuses) subs ->
  forall e w, In (settler w) subs -> dget (e_state e) i <> Some (w i) ->
  mres (each (perform t) subs e (NParticipation u i o nw)) = OutOfFuel.
Proof.
  intros T. induction 1 as [|sb subs H _ IH]; intros e w M N; [destruct M|]. cbn [each].
  destruct H as [H|(v & -> & K)].
  - rewrite H. rewrite mbind_ok. unfold mres at 1. cbn [snd]. apply (IH e w); [|exact N].
    destruct M as [->|M]; [|exact M]. specialize (H e (NParticipation "" i None None)). discriminate H.
  - cbn [settler perform]. destruct (opt_str_eqb (dget (e_state e) i) (Some (v i))) eqn:Q.
    + apply opt_str_eqb_eq in Q. rewrite (told_same t e i (v i) K Q), mbind_ok. unfold mres at 1. cbn [snd].
      apply (IH e w); [|exact N]. destruct M as [M|M]; [|exact M]. exfalso. apply N. rewrite Q. f_equal.
      pose proof (f_equal (fun sb => sb e (NParticipation "" i None None)) M) as X. cbn [settler] in X. now injection X.
    + assert (Q' : dget (e_state e) i <> Some (v i)) by (intros X; apply opt_str_eqb_eq in X; congruence).
      rewrite (told_some t e i (v i) K Q'). cbv zeta.
      specialize (T (with_state e (dset (e_state e) i (v i)))
                    (NParticipation (e_uid e) i (dget (e_state e) i) (Some (v i))) ltac:(eauto)).
      rewrite T. reflexivity.
Qed.

Lemma disagree_tell i subs : disagree i subs -> forall depth e x, (exists u o nw, x = NParticipation u i o nw) ->
  mres (tell depth subs e x) = OutOfFuel.
Proof.
  intros [F (w1 & w2 & M1 & M2 & N)] depth. induction depth as [|d IH]; intros e x X; [reflexivity|].
  cbn [tell]. destruct X as (u & o & nw & ->).
  destruct (opt_str_eqb (dget (e_state e) i) (Some (w1 i))) eqn:Q.
  - apply opt_str_eqb_eq in Q. apply each_disagree with w2; [exact IH|exact F|exact M2|congruence].
  - apply each_disagree with w1; [exact IH|exact F|exact M1|]. intros X. apply opt_str_eqb_eq in X. congruence.
Qed.

(** Two subscribers that settle different statuses never come to an end: every
    change of that participant's status, by setting it or by an invitation,
    exhausts any depth of recursion. *)
Theorem C114_disagreement i subs depth e : disagree i subs -> dicts_ok e ->
  (forall s, In s statuses -> dget (e_state e) i <> Some s ->
     mres (act depth subs e (CStatus (Some i) (Some s))) = OutOfFuel)
  /\ (dget (e_state e) i <> None -> dget (e_role e) i <> None ->
     mres (act depth subs e (CStatus (Some i) None)) = OutOfFuel)
  /\ (forall l, dget (e_state e) i = None -> mres (act depth subs e (CInvite (Some i :: l))) = OutOfFuel).
Proof.
  intros D DO.
  assert (P : forall s, In s statuses -> dget (e_state e) i <> Some s ->
     mres (set_status_told (tell depth subs) e (Some i) (Some s)) = OutOfFuel).
  { intros s KS NS. rewrite (told_some _ e i s KS NS). cbv zeta. unfold mres at 1. cbn [snd].
    apply disagree_tell with i; eauto. }
  split; [exact P|]. split.
  - intros N R. unfold act. cbn [perform].
    destruct (told_cases (tell depth subs) e (Some i) None)
      as [(_ & X)|[(_ & X & _)|[(j & J & _ & _ & X)|(j & J & _ & _ & ->)]]].
    + elim X. exact I.
    + discriminate X.
    + injection J as <-. contradiction.
    + injection J as <-. rewrite set_raw_none by assumption. rewrite !mbind_ok. unfold mres at 1. cbn [snd].
      unfold mres at 1. cbn [snd]. apply disagree_tell with i; eauto.
  - intros l E. unfold act. cbn [perform invite_told]. unfold get_status. cbn [attendee_id rbind]. rewrite E.
    specialize (P "NEEDS-ACTION"%string ltac:(now left) ltac:(congruence)).
    destruct (set_status_told _ e (Some i) _) as [[e1 n1] r1]. unfold mres in *. cbn [snd] in *. subst r1. reflexivity.
Qed.
Example C114_disagreement_ex :
  let strict := settler (fun _ => "DECLINED"%string) in
  disagree "guido" [quiet; accepter; strict]
  /\ mres (act 50 [quiet; accepter; strict] the_party (CStatus (Some "guido") (Some "ACCEPTED"))%string) = OutOfFuel
  /\ List.length (mnotes (act 50 [quiet; accepter; strict] the_party (CStatus (Some "guido") (Some "ACCEPTED"))%string))
     = 51%nat
  /\ mres (act 50 [quiet; accepter] the_party (CStatus (Some "guido") (Some "ACCEPTED"))%string) = Ok tt.
Proof.
  cbv zeta. split; [|vm_compute; repeat split]. split.
  - constructor; [left; intros e x; reflexivity|]. constructor; [|constructor; [|constructor]]; right.
    + exists (fun _ => "ACCEPTED"%string). split; [reflexivity|cbn; tauto].
    + exists (fun _ => "DECLINED"%string). split; [reflexivity|cbn; tauto].
  - exists (fun _ => "ACCEPTED"%string), (fun _ => "DECLINED"%string). cbn. repeat split; [tauto|tauto|discriminate].
Qed.
Print Assumptions C114_disagreement.

(** * C112 again: the exception *)
(** a subscriber that takes out whoever is invited *)
Definition refuser : subscriber :=
  fun _ x => match x with
             | NParticipation _ i _ (Some s) => if String.eqb s "NEEDS-ACTION" then Some (CStatus (Some i) None) else None
             | _ => None
             end.

(** A subscriber that takes out whoever is invited makes the invitation fail with
    KeyError, because the role is only set afterwards: the newly invited is
    announced but not there, the rest of the list is not invited. *)
Theorem C112_refused depth e i l :
  (1 <= depth)%nat -> dget (e_state e) i = None -> dget (e_role e) i = None -> dicts_ok e ->
  exists e', act depth [refuser] e (CInvite (Some i :: l))
    = (e', [NParticipation (e_uid e) i None (Some "NEEDS-ACTION"%string)], Raise KeyError)
  /\ (forall j, dget (e_state e') j = dget (e_state e) j) /\ e_role e' = e_role e /\ same_attrs e e'.
Proof.
  intros D S R [D1 D2]. destruct depth as [|d]; [lia|]. unfold act. cbn [perform invite_told]. unfold get_status.
  cbn [attendee_id rbind]. rewrite S. rewrite (told_some _ e i "NEEDS-ACTION") by (now left || congruence). cbv zeta.
  set (e1 := with_state e (dset (e_state e) i "NEEDS-ACTION"%string)).
  assert (E1 : dget (e_state e1) i = Some "NEEDS-ACTION"%string) by (cbn; now rewrite dget_dset, String.eqb_refl).
  rewrite S. cbn [tell each refuser String.eqb Ascii.eqb Bool.eqb perform].
  destruct (told_cases (tell d [refuser]) e1 (Some i) None)
    as [(_ & X)|[(_ & X & _)|[(j & J & _ & _ & X)|(j & J & _ & _ & ->)]]].
  - elim X. exact I.
  - discriminate X.
  - injection J as <-. congruence.
  - injection J as <-.
    assert (Q : set_status_raw e1 (Some i) None = (with_state e1 (drem (e_state e1) i), [], Raise KeyError)).
    { unfold set_status_raw, ddel. cbn [attendee_id]. rewrite E1. cbn [e_role with_state].
      change (e_role e1) with (e_role e). rewrite R. reflexivity. }
    rewrite Q. cbn [mbind]. unfold mev, mnotes, mres. cbn [fst snd mbind].
    eexists. split; [reflexivity|]. split; [|split; [reflexivity|repeat split]].
    intros j. cbn. rewrite dget_drem by now apply dset_nodup. rewrite dget_dset.
    destruct (String.eqb_spec j i) as [->|_]; [now rewrite S|reflexivity].
Qed.
Example C112_refused_ex :
  act 5 [refuser] the_meeting (CInvite [Some "room"; Some "guido"]%string)
  = (the_meeting, [NParticipation "meeting" "room" None (Some "NEEDS-ACTION"%string)], Raise KeyError).
Proof. vm_compute. reflexivity. Qed.
Print Assumptions C112_refused.
