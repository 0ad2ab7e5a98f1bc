(** Property theorems C169: inviting while people answer. *)
From Verif Require Import Base PyDate DateFacts Recurrent CalTime Event EventProofs QueryProofs System Threads PropThreads Invites.

(** ** Specification *)
(** some call invites this person *)
Definition listed (cs : list icall) (i : string) : Prop := exists l, In (VInvite l) cs /\ In (Some i) l.
(** where a person's status may come from: it was so before, they answered so, or they had
    none and were invited *)
Definition status_from (e0 : event) (cs : list icall) (i : string) (o : option string) : Prop :=
  o = dget (e_state e0) i
  \/ (exists v, o = Some v /\ In v statuses /\ In (VAnswer (Some i) v) cs)
  \/ (o = Some "NEEDS-ACTION"%string /\ dget (e_state e0) i = None /\ listed cs i).
(** and a person's role *)
Definition role_from (e0 : event) (cs : list icall) (i : string) (o : option string) : Prop :=
  o = dget (e_role e0) i
  \/ (exists ro, o = Some ro /\ In ro roles /\ In (VRole (Some i) ro) cs)
  \/ (o = Some "REQ-PARTICIPANT"%string /\ dget (e_state e0) i = None /\ listed cs i).
(** what call [c] may announce *)
Definition may_say (e0 : event) (cs : list icall) (c : icall) (n : notification) : Prop :=
  exists i old v, n = NParticipation (e_uid e0) i old (Some v) /\ old <> Some v /\ status_from e0 cs i old
  /\ ((c = VAnswer (Some i) v /\ In v statuses)
      \/ exists l, c = VInvite l /\ In (Some i) l /\ v = "NEEDS-ACTION"%string /\ dget (e_state e0) i = None).
(** whom the announcements are about *)
Definition whom (l : list notification) : list string :=
  flat_map (fun n => match n with NParticipation _ i _ _ => [i] | _ => [] end) l.
(** all these people have a status *)
Definition present (e : event) (l : list attendee) : Prop := forall i, In (Some i) l -> dget (e_state e) i <> None.
(** how a call ends, and what is then true of the people in an invitation's list *)
Definition over (e : event) (c : icall) (x : res unit) : Prop :=
  match c with
  | VInvite l => (~ In None l /\ x = Ok tt /\ present e l)
                 \/ (exists pre post, l = pre ++ None :: post /\ ~ In None pre /\ x = Raise AttributeError /\ present e pre)
  | VAnswer a v => (~ In v statuses /\ x = Raise AssertionError)
                   \/ (In v statuses /\ a = None /\ x = Raise AttributeError)
                   \/ (In v statuses /\ a <> None /\ x = Ok tt)
  | VRole a ro => (~ In ro roles /\ x = Raise AssertionError)
                  \/ (In ro roles /\ a = None /\ x = Raise AttributeError)
                  \/ (In ro roles /\ a <> None /\ x = Ok tt)
  end.
(** how many actions a call has at most *)
Definition actions (c : icall) : nat :=
  match c with VInvite l => 2 + 5 * List.length l | VAnswer _ _ => 3 | VRole _ _ => 1 end.

(** ** By itself *)
Lemma idone_stays e out x n : iturns (e, out, [IDone x]) (repeat 0%nat n) = (e, out, [IDone x]).
Proof. induction n as [|n IH]; [reflexivity|]. cbn [repeat iturns fold_left igo nth_error istep map replace_nth]. rewrite app_nil_r. exact IH. Qed.

Lemma invite_by_turns l : forall e out n, (1 + 5 * List.length l <= n)%nat ->
  iturns (e, out, [ILook l]) (repeat 0%nat n)
  = (mev (invite e l), out ++ map (pair 0%nat) (mnotes (invite e l)), [IDone (mres (invite e l))]).
Proof.
  induction l as [|a l IH]; intros e out n L; cbn [List.length] in L.
  - destruct n as [|n]; [lia|]. cbn [repeat iturns fold_left igo nth_error istep map replace_nth invite mev mnotes mres fst snd]. rewrite !app_nil_r. apply idone_stays.
  - destruct n as [|n]; [lia|]. destruct a as [i|].
    2:{ cbn [repeat iturns fold_left igo nth_error istep map replace_nth invite get_status attendee_id rbind mev mnotes mres fst snd]. rewrite !app_nil_r. apply idone_stays. }
    cbn [repeat iturns fold_left igo nth_error istep map replace_nth]. rewrite app_nil_r. cbn [invite get_status attendee_id rbind].
    destruct (dget (e_state e) i) as [v|] eqn:G.
    + apply IH. lia.
    + rewrite invite_step, mbind_ok by exact G.
      destruct n as [|n]; [lia|]. cbn [repeat fold_left igo nth_error istep map replace_nth]. rewrite G. cbn [opt_str_eqb]. rewrite app_nil_r.
      destruct n as [|n]; [lia|]. cbn [repeat fold_left igo nth_error istep map replace_nth]. rewrite app_nil_r.
      destruct n as [|n]; [lia|]. cbn [repeat fold_left igo nth_error istep map replace_nth].
      destruct n as [|n]; [lia|]. cbn [repeat fold_left igo nth_error istep map replace_nth]. rewrite app_nil_r.
      etransitivity; [apply IH; lia|]. rewrite <- app_assoc. reflexivity.
Qed.

Theorem C169_alone : forall e c n, (actions c <= n)%nat ->
  iturns (istart e [c]) (repeat 0%nat n)
  = (mev (icall_alone e c), map (pair 0%nat) (mnotes (icall_alone e c)), [IDone (mres (icall_alone e c))]).
Proof.
  intros e c n L. destruct n as [|n]; [destruct c; cbn in L; lia|]. unfold istart. destruct c as [l|a v|a ro]; cbn [actions] in L; cbn [icall_alone map].
  - cbn [repeat iturns fold_left igo nth_error istep map replace_nth app]. apply (invite_by_turns l e []). lia.
  - unfold set_status, get_status. cbn [repeat iturns fold_left igo nth_error istep map replace_nth app].
    destruct (str_in v statuses); [|apply idone_stays]. destruct a as [i|]; [|apply idone_stays]. cbn [attendee_id rbind].
    destruct (opt_str_eqb (dget (e_state e) i) (Some v)); [apply idone_stays|].
    destruct n as [|n]; [lia|]. destruct n as [|n]; [lia|]. cbn [repeat iturns fold_left igo nth_error istep map replace_nth app]. apply idone_stays.
  - unfold set_role. cbn [repeat iturns fold_left igo nth_error istep map replace_nth app].
    destruct (str_in ro roles); [|apply idone_stays]. destruct a as [i|]; apply idone_stays.
Qed.
Print Assumptions C169_alone.

(** ** Together *)
(** what is known of a thread: [s] is what it has announced *)
Definition ahead (e0 e : event) (c : icall) (i : string) (l : list attendee) (s : list notification) : Prop :=
  exists pre, c = VInvite (pre ++ Some i :: l) /\ ~ In None pre /\ present e pre /\ dget (e_state e0) i = None.
Definition fits (e0 e : event) (cs : list icall) (c : icall) (t : ithread) (s : list notification) : Prop :=
  match t with
  | IAt c' => c' = c /\ s = []
  | ILook l => exists pre, c = VInvite (pre ++ l) /\ ~ In None pre /\ present e pre
  | IMiss i l => ahead e0 e c i l s /\ ~ In i (whom s)
  | ISet i old v None => c = VAnswer (Some i) v /\ In v statuses /\ old <> Some v /\ status_from e0 cs i old /\ s = []
  | ISet i old v (Some l) => v = "NEEDS-ACTION"%string /\ ahead e0 e c i l s /\ old <> Some v /\ status_from e0 cs i old /\ ~ In i (whom s)
  | ITell i n k => exists old v, n = NParticipation (e_uid e0) i old (Some v) /\ old <> Some v /\ status_from e0 cs i old /\ dget (e_state e) i <> None
      /\ match k with
         | None => c = VAnswer (Some i) v /\ In v statuses /\ s = []
         | Some l => v = "NEEDS-ACTION"%string /\ ahead e0 e c i l s /\ ~ In i (whom s)
         end
  | ISeat i l => ahead e0 e c i l s /\ dget (e_state e) i <> None
  | IDone x => over e c x
  end
  /\ NoDup (whom s) /\ (forall i, In i (whom s) -> dget (e_state e) i <> None) /\ (forall n, In n s -> may_say e0 cs c n)
  /\ (match c with VAnswer _ _ => (List.length s <= 1)%nat | VRole _ _ => s = [] | VInvite _ => True end).

Definition iinv (e0 : event) (cs : list icall) (w : irunning) : Prop :=
  let '(e, out, ts) := w in
  List.length ts = List.length cs
  /\ same_attrs e0 e
  /\ (forall j c t, nth_error cs j = Some c -> nth_error ts j = Some t -> fits e0 e cs c t (said j out))
  /\ (forall i, dget (e_state e0) i <> None -> dget (e_state e) i <> None)
  /\ (forall i, dget (e_state e) i = dget (e_state e0) i
       \/ exists j old, (exists c, nth_error cs j = Some c) /\
            (In (NParticipation (e_uid e0) i old (dget (e_state e) i)) (said j out)
            \/ exists k, nth_error ts j = Some (ITell i (NParticipation (e_uid e0) i old (dget (e_state e) i)) k)))
  /\ (forall i, role_from e0 cs i (dget (e_role e) i))
  /\ (forall i, (forall v, ~ In (VAnswer (Some i) v) cs) -> (dget (e_state e0) i = None \/ dget (e_role e0) i <> None) ->
        dget (e_state e) i <> None ->
        dget (e_role e) i <> None
        \/ exists j l n, nth_error ts j = Some (ITell i n (Some l)) \/ nth_error ts j = Some (ISeat i l)).

(** ** The invariant is kept *)
Lemma present_more e e' l : (forall i, dget (e_state e) i <> None -> dget (e_state e') i <> None) -> present e l -> present e' l.
Proof. intros M P i I. apply M, P, I. Qed.
Lemma over_more e e' c x : (forall i, dget (e_state e) i <> None -> dget (e_state e') i <> None) -> over e c x -> over e' c x.
Proof.
  intros M. destruct c as [l|a v|a ro]; cbn [over]; auto. intros [(A & B & C)|(p & q & A & B & C & D)]; [left|right; exists p, q]; repeat split; auto; eapply present_more; eauto.
Qed.
Lemma ahead_more e0 e e' c i l s : (forall i, dget (e_state e) i <> None -> dget (e_state e') i <> None) -> ahead e0 e c i l s -> ahead e0 e' c i l s.
Proof. intros M (p & A & B & C & D). exists p. repeat split; auto. eapply present_more; eauto. Qed.
Lemma fits_more e0 e e' cs c t s : (forall i, dget (e_state e) i <> None -> dget (e_state e') i <> None) -> fits e0 e cs c t s -> fits e0 e' cs c t s.
Proof.
  intros M (T & N & P & Q & L). split; [|auto]. destruct t as [c'|l|i l|i old v [l|]|i n k|i l|x].
  - exact T.
  - destruct T as (p & A & B & C). exists p. repeat split; auto. eapply present_more; eauto.
  - destruct T as [A B]. split; auto. eapply ahead_more; eauto.
  - destruct T as (A & B & C). repeat split; try apply C; auto. eapply ahead_more; eauto.
  - exact T.
  - destruct T as (old & v & A & B & C & D & E). exists old, v. repeat split; auto. destruct k as [l|]; [|exact E]. destruct E as (E & F & G). repeat split; auto. eapply ahead_more; eauto.
  - destruct T as [A B]. split; auto. eapply ahead_more; eauto.
  - eapply over_more; eauto.
Qed.
Lemma step_more e t i : dget (e_state e) i <> None -> dget (e_state (fst (fst (istep e t)))) i <> None.
Proof.
  intros D. destruct t as [[l|a v|a ro]|[|[k|] l]|k l|k old v o|k n o|k l|x]; cbn [istep fst]; auto.
  - destruct (str_in ro roles); [destruct a|]; exact D.
  - cbn [with_state e_state]. rewrite dget_dset. destruct (String.eqb _ _); [discriminate|exact D].
Qed.

Lemma fits_step e0 e cs c t s :
  same_attrs e0 e ->
  (forall i, status_from e0 cs i (dget (e_state e) i)) ->
  (forall i, dget (e_state e0) i <> None -> dget (e_state e) i <> None) ->
  In c cs -> fits e0 e cs c t s ->
  fits e0 (fst (fst (istep e t))) cs c (snd (istep e t)) (s ++ snd (fst (istep e t))).
Proof.
  intros SA SF MO IC F.
  assert (M := step_more e t). assert (FS := F). apply (fits_more e0 e (fst (fst (istep e t)))) in FS; [|exact M].
  destruct FS as (_ & N & P & Q & L). destruct F as (T & _ & P0 & _ & _).
  destruct t as [c'|l|i l|i old v k|i n k|i l|x].
  - destruct T as [-> ->]. destruct c as [l|a v|a ro]; cbn [istep] in *.
    + cbn [fst snd app] in *. split; [|auto]. exists []. repeat split; auto.
    + cbn [fst snd app] in *. split; [|auto]. destruct (str_in v statuses) eqn:V.
      2:{ left. split; [|reflexivity]. intros I. apply str_in_iff in I. congruence. }
      apply str_in_iff in V. destruct a as [i|]; [|right; left; auto].
      destruct (opt_str_eqb (dget (e_state e) i) (Some v)) eqn:E; [right; right; repeat split; auto; discriminate|].
      repeat split; auto. intros X. apply opt_str_eqb_eq in X. congruence.
    + destruct (str_in ro roles) eqn:V.
      2:{ cbn [fst snd app] in *. split; [|auto]. left. split; [|reflexivity]. intros I. apply str_in_iff in I. congruence. }
      apply str_in_iff in V. destruct a as [i|]; cbn [fst snd app] in *; (split; [|auto]); [right; right|right; left]; repeat split; auto; discriminate.
  - destruct T as (p & A & B & C). destruct l as [|[i|] l]; cbn [istep fst snd] in *; rewrite ?app_nil_r.
    + split; [|auto]. rewrite app_nil_r in A. subst c. left. auto.
    + split; [|auto]. destruct (dget (e_state e) i) as [v|] eqn:G.
      * exists (p ++ [Some i]). rewrite <- app_assoc. repeat split; auto.
        -- rewrite in_app_iff. intros [X|[X|[]]]; [auto|discriminate].
        -- intros k I. apply in_app_iff in I. destruct I as [I|[[= <-]|[]]]; [now apply C|congruence].
      * split; [|intros X; exact (P0 _ X G)]. exists p. repeat split; auto. destruct (dget (e_state e0) i) eqn:G0; [|reflexivity]. exfalso. apply (MO i); congruence.
    + split; [|auto]. subst c. right. exists p, l. auto.
  - destruct T as [A B]. cbn [istep fst snd] in *. rewrite app_nil_r. split; [|auto].
    destruct (opt_str_eqb (dget (e_state e) i) (Some "NEEDS-ACTION"%string)) eqn:E.
    + apply opt_str_eqb_eq in E. split; [exact A|congruence].
    + repeat split; auto. intros X. apply opt_str_eqb_eq in X. congruence.
  - cbn [istep fst snd] in *. rewrite app_nil_r. split; [|auto]. destruct SA as [SU _]. rewrite SU. exists old, v.
    assert (X : dget (e_state (with_state e (dset (e_state e) i v))) i <> None) by (cbn [with_state e_state]; rewrite dget_dset, String.eqb_refl; discriminate).
    destruct k as [l|].
    + destruct T as (A & B & C & D & E). repeat split; auto. eapply ahead_more; [exact M|exact B].
    + destruct T as (A & B & C & D & E). repeat split; auto.
  - destruct T as (old & v & A & B & C & D & E). cbn [istep fst snd] in *. subst n.
    assert (W : whom (s ++ [NParticipation (e_uid e0) i old (Some v)]) = whom s ++ [i]) by (unfold whom; now rewrite flat_map_app).
    assert (MS : may_say e0 cs c (NParticipation (e_uid e0) i old (Some v))).
    { exists i, old, v. repeat split; auto. destruct k as [l|]; [right|left; split; apply E]. destruct E as (E1 & (p & E2 & E3 & E4 & E5) & E6). exists (p ++ Some i :: l). repeat split; auto. apply in_or_app. right. now left. }
    split; [|split; [|split; [|split]]].
    + destruct k as [l|].
      * destruct E as (E1 & E2 & E3). split; auto.
      * destruct E as (-> & E2 & E3). right. right. repeat split; auto. discriminate.
    + rewrite W. destruct k as [l|]; [apply NoDup_snoc; [exact N|apply E]|]. destruct E as (_ & _ & ->). cbn. constructor; [intros []|constructor].
    + intros j. rewrite W, in_app_iff. intros [X|[<-|[]]]; auto.
    + intros n. rewrite in_app_iff. intros [X|[<-|[]]]; auto.
    + destruct k as [l|]; [destruct E as (_ & (p & -> & _) & _); exact I|]. destruct E as (-> & _ & ->). cbn. lia.
  - destruct T as [(p & A & B & C & D) G]. cbn [istep fst snd] in *. rewrite app_nil_r. split; [|auto].
    exists (p ++ [Some i]). rewrite <- app_assoc. repeat split; auto.
    + rewrite in_app_iff. intros [X|[X|[]]]; [auto|discriminate].
    + intros k I. apply in_app_iff in I. destruct I as [I|[[= <-]|[]]]; [now apply C|exact G].
  - cbn [istep fst snd] in *. rewrite app_nil_r. split; [|auto]. exact T.
Qed.

Lemma iinv_status e0 cs e out ts i : iinv e0 cs (e, out, ts) -> status_from e0 cs i (dget (e_state e) i).
Proof.
  intros (I1 & I2 & I3 & I4 & I5 & _). destruct (I5 i) as [X|(j & old & (c & J) & X)]; [now left|].
  assert (IC := nth_error_In _ _ J).
  assert (T : exists t, nth_error ts j = Some t).
  { destruct (nth_error ts j) eqn:T; [eauto|]. exfalso. apply nth_error_None in T. assert (H := nth_error_Some cs j). rewrite J in H. assert (j < List.length cs)%nat by (apply H; discriminate). lia. }
  destruct T as [t T]. assert (F := I3 _ _ _ J T).
  assert (V : exists v, dget (e_state e) i = Some v /\ ((c = VAnswer (Some i) v /\ In v statuses) \/ exists l, c = VInvite l /\ In (Some i) l /\ v = "NEEDS-ACTION"%string /\ dget (e_state e0) i = None)).
  { destruct X as [X|[k X]].
    - destruct F as (_ & _ & _ & Q & _). destruct (Q _ X) as (i' & old' & v & [= <- _ E] & _ & _ & D). eauto.
    - rewrite X in T. injection T as <-. destruct F as [(old' & v & [= _ E] & _ & _ & _ & D) _]. exists v. split; [exact E|].
      destruct k as [l|]; [right|left; split; apply D]. destruct D as (D1 & (p & D2 & _ & _ & D3) & _). exists (p ++ Some i :: l). repeat split; auto. apply in_or_app. right. now left. }
  destruct V as (v & E & [[-> W]|(l & -> & W1 & -> & W2)]); [right; left; exists v; auto|]. right. right. repeat split; auto. exists l. auto.
Qed.

Lemma iinv_go e0 cs w j : iinv e0 cs w -> iinv e0 cs (igo w j).
Proof.
  destruct w as [[e out] ts]. intros I. assert (ST := fun i => iinv_status _ _ _ _ _ i I). destruct I as (I1 & I2 & I3 & I4 & I5 & I6 & I7).
  cbn [igo]. destruct (nth_error ts j) as [t|] eqn:T; [|unfold iinv; auto 10].
  assert (J : exists c, nth_error cs j = Some c).
  { destruct (nth_error cs j) eqn:J; [eauto|]. exfalso. apply nth_error_None in J. assert (H := nth_error_Some ts j). rewrite T in H. assert (j < List.length ts)%nat by (apply H; discriminate). lia. }
  destruct J as [c J]. assert (IC := nth_error_In _ _ J). assert (F := I3 _ _ _ J T).
  assert (FS := fits_step e0 e cs c t (said j out) I2 ST I4 IC F). assert (M := step_more e t).
  destruct (istep e t) as [[e' n] t'] eqn:S. cbn [fst snd] in *.
  assert (SD : forall k, said k (out ++ map (pair j) n) = if Nat.eqb k j then said k out ++ n else said k out).
  { intros k. rewrite said_app, said_pair, (Nat.eqb_sym j k). destruct (Nat.eqb k j); [reflexivity|apply app_nil_r]. }
  split; [|split; [|split; [|split; [|split; [|split]]]]].
  - rewrite <- I1. clear. revert j. induction ts as [|x ts IH]; intros [|j]; cbn; auto.
  - apply (same_attrs_trans _ e); [exact I2|].
    destruct t as [[l|a v|a ro]|[|[k|] l]|k l|k old v o|k m o|k l|x]; cbn [istep] in S.
    3:{ destruct (str_in ro roles); [destruct a|]; injection S as <- <- <-; apply same_attrs_refl || apply same_attrs_role. }
    all: injection S as <- <- <-; apply same_attrs_refl || apply same_attrs_role || apply same_attrs_state.
  - intros k d u K. rewrite (get_nth _ _ _ _ _ T), SD. destruct (Nat.eqb_spec k j) as [->|NE].
    + intros [= <-]. rewrite J in K. injection K as <-. exact FS.
    + intros U. eapply fits_more; [exact M|]. apply (I3 k d u); assumption.
  - intros i D. apply M, I4, D.
  - intros i.
    assert (KEEP : dget (e_state e') i = dget (e_state e) i -> (forall m k, t = ITell i m k -> n = [m]) ->
      dget (e_state e') i = dget (e_state e0) i
      \/ exists j0 old, (exists c, nth_error cs j0 = Some c) /\
            (In (NParticipation (e_uid e0) i old (dget (e_state e') i)) (said j0 (out ++ map (pair j) n))
            \/ exists k, nth_error (replace_nth j ts t') j0 = Some (ITell i (NParticipation (e_uid e0) i old (dget (e_state e') i)) k))).
    { intros E H. rewrite E. destruct (I5 i) as [X|(k & old & K & X)]; [now left|]. right. exists k, old. split; [exact K|].
      rewrite SD. destruct X as [X|[o X]].
      - left. destruct (Nat.eqb k j); [apply in_or_app; now left|exact X].
      - rewrite (get_nth _ _ _ _ _ T). destruct (Nat.eqb_spec k j) as [->|NE]; [|right; exists o; exact X].
        rewrite X in T. injection T as <-. left. rewrite (H _ _ eq_refl). apply in_or_app. right. now left. }
    destruct t as [[l|a v|a ro]|[|[k|] l]|k l|k old v o|k m o|k l|x]; cbn [istep] in S.
    3:{ destruct (str_in ro roles); [destruct a|]; injection S as <- <- <-; apply KEEP; try reflexivity; discriminate. }
    all: injection S as <- <- <-; try (apply KEEP; [reflexivity|discriminate]).
    + destruct (String.eqb_spec i k) as [->|NE].
      * right. exists j, old. split; [eauto|]. right. exists o. rewrite (get_nth _ _ _ _ _ T), Nat.eqb_refl. destruct I2 as [-> _]. cbn [with_state e_state]. now rewrite dget_dset, String.eqb_refl.
      * apply KEEP; [|discriminate]. cbn [with_state e_state]. rewrite dget_dset. destruct (String.eqb_spec i k); [contradiction|reflexivity].
    + apply KEEP; [reflexivity|]. intros m' k' [= _ -> _]. reflexivity.
  - intros i. destruct t as [[l|a v|a ro]|[|[k|] l]|k l|k old v o|k m o|k l|x]; cbn [istep] in S.
    3:{ destruct F as [[<- _] _]. destruct (str_in ro roles) eqn:R; [destruct a as [k|]|]; injection S as <- <- <-; auto.
        cbn [with_role e_role]. rewrite dget_dset. destruct (String.eqb_spec i k) as [->|NE]; [|auto]. right. left. exists ro. apply str_in_iff in R. auto. }
    all: injection S as <- <- <-; auto.
    cbn [with_role e_role]. rewrite dget_dset. destruct (String.eqb_spec i k) as [->|NE]; [|auto]. right. right.
    destruct F as [[(p & -> & _ & _ & D) _] _]. repeat split; auto. exists (p ++ Some k :: l). split; [exact IC|apply in_or_app; right; now left].
  - intros i NA H0 D.
    assert (KEEP : dget (e_state e) i <> None -> (dget (e_role e) i <> None -> dget (e_role e') i <> None) ->
      (forall m l, t = ITell i m (Some l) -> t' = ISeat i l) -> (forall l, t = ISeat i l -> dget (e_role e') i <> None) ->
      dget (e_role e') i <> None
      \/ exists j0 l m, nth_error (replace_nth j ts t') j0 = Some (ITell i m (Some l)) \/ nth_error (replace_nth j ts t') j0 = Some (ISeat i l)).
    { intros D0 H1 H2 H3. destruct (I7 i NA H0 D0) as [X|(k & l & m & X)]; [left; auto|].
      destruct (Nat.eqb_spec k j) as [->|NE].
      - destruct X as [X|X]; rewrite X in T; injection T as <-; [|left; eapply H3; reflexivity].
        right. exists j, l, m. right. rewrite (get_nth _ _ _ _ _ X), Nat.eqb_refl, (H2 _ _ eq_refl). reflexivity.
      - right. exists k, l, m. rewrite (get_nth _ _ _ _ _ T). destruct (Nat.eqb_spec k j); [contradiction|exact X]. }
    destruct t as [[l|a v|a ro]|[|[k|] l]|k l|k old v o|k m o|k l|x]; cbn [istep] in S.
    3:{ destruct (str_in ro roles); [destruct a|]; injection S as <- <- <-; apply KEEP; try discriminate; auto.
        intros X. cbn [with_role e_role]. rewrite dget_dset. destruct (String.eqb _ _); [discriminate|exact X]. }
    all: injection S as <- <- <-; try (apply KEEP; try discriminate; auto; fail).
    + destruct (String.eqb_spec i k) as [->|NE].
      * destruct o as [l|].
        -- right. eexists j, l, _. left. rewrite (get_nth _ _ _ _ _ T), Nat.eqb_refl. reflexivity.
        -- destruct F as [(-> & _) _]. exfalso. exact (NA v IC).
      * apply KEEP; try discriminate; auto. cbn [with_state e_state] in D. rewrite dget_dset in D. destruct (String.eqb_spec i k); [contradiction|exact D].
    + apply KEEP; try discriminate; auto. intros m' l [= -> _ ->]. reflexivity.
    + apply KEEP; try discriminate; auto; cbn [with_role e_role]; [intros X|intros l' [= -> _]]; rewrite dget_dset; [|rewrite String.eqb_refl; discriminate].
      destruct (String.eqb _ _); [discriminate|exact X].
Qed.

Lemma iinv_start e cs : iinv e cs (istart e cs).
Proof.
  unfold istart. cbn [iinv]. split; [apply map_length|]. split; [apply same_attrs_refl|]. split; [|split; [|split; [|split]]].
  - intros j c t J T. rewrite nth_error_map, J in T. injection T as <-. cbn. repeat split; auto; try constructor; try (intros ? []). destruct c; auto.
  - auto.
  - auto.
  - intros i. now left.
  - intros i _ [H|H] D; [contradiction|now left].
Qed.
Lemma iinv_turns e cs sched : iinv e cs (iturns (istart e cs) sched).
Proof.
  assert (H : forall sched w, iinv e cs w -> iinv e cs (iturns w sched)).
  { clear sched. intros sched. induction sched as [|j sched IH]; intros w I; cbn; [exact I|]. apply IH, iinv_go, I. }
  apply H, iinv_start.
Qed.

(** ** The theorems *)
(** every call ends, in the way it would by itself, and an invitation that ends has given
    everyone of its list (up to a None) a status *)
Definition itodo (t : ithread) : nat :=
  match t with
  | IAt c => actions c
  | ILook l => 1 + 5 * List.length l
  | IMiss _ l => 5 + 5 * List.length l
  | ISet _ _ _ None => 2
  | ISet _ _ _ (Some l) => 4 + 5 * List.length l
  | ITell _ _ None => 1
  | ITell _ _ (Some l) => 3 + 5 * List.length l
  | ISeat _ l => 2 + 5 * List.length l
  | IDone _ => 0
  end.
Lemma itodo_step e t : (itodo (snd (istep e t)) <= pred (itodo t))%nat.
Proof.
  destruct t as [[l|a v|a ro]|[|[i|] l]|i l|i old v [l|]|i m [l|]|i l|x]; cbn [istep snd itodo actions List.length]; try lia.
  - destruct (str_in v statuses); [destruct a as [i|]; [destruct (opt_str_eqb _ _)|]|]; cbn [itodo]; lia.
  - destruct (str_in ro roles); [destruct a|]; cbn [snd itodo]; lia.
  - destruct (dget (e_state e) i); cbn [itodo]; lia.
  - destruct (opt_str_eqb _ _); cbn [itodo]; lia.
Qed.
Lemma itodo_turns sched j : forall w t, nth_error (snd w) j = Some t ->
  exists t', nth_error (snd (iturns w sched)) j = Some t' /\ (itodo t' <= itodo t - count_occ Nat.eq_dec sched j)%nat.
Proof.
  induction sched as [|k sched IH]; intros w t T; cbn [iturns fold_left count_occ]; [exists t; split; [exact T|lia]|].
  destruct w as [[e out] ts]. cbn [snd] in T. cbn [igo]. destruct (nth_error ts k) as [u|] eqn:U.
  - assert (H := itodo_step e u). destruct (istep e u) as [[e' n] u'] eqn:S. cbn [snd] in H.
    destruct (Nat.eq_dec k j) as [->|NE].
    + rewrite T in U. injection U as <-.
      destruct (IH (e', out ++ map (pair j) n, replace_nth j ts u') u') as (t' & A & B); [cbn [snd]; rewrite (get_nth _ _ _ _ _ T), Nat.eqb_refl; reflexivity|].
      exists t'. split; [exact A|lia].
    + apply (IH (e', out ++ map (pair k) n, replace_nth k ts u') t). cbn [snd]. rewrite (get_nth _ _ _ _ _ U). destruct (Nat.eqb_spec j k); [subst; contradiction|exact T].
  - destruct (Nat.eq_dec k j) as [->|NE]; [congruence|]. apply (IH (e, out, ts) t T).
Qed.

Theorem C169_ends : forall e cs sched j c, nth_error cs j = Some c -> (actions c <= count_occ Nat.eq_dec sched j)%nat ->
  let w := iturns (istart e cs) sched in
  exists x, nth_error (snd w) j = Some (IDone x) /\ over (fst (fst w)) c x.
Proof.
  intros e cs sched j c J L w.
  destruct (itodo_turns sched j (istart e cs) (IAt c)) as (t & T & D); [cbn; rewrite nth_error_map, J; reflexivity|].
  fold w in T. assert (E : exists x, t = IDone x).
  { cbn [itodo] in D. assert (Z : itodo t = 0%nat) by lia. destruct t as [[l|a v|a ro]|l|i l|i old v [l|]|i m [l|]|i l|x]; cbn -[Nat.mul] in Z; try lia. eauto. }
  destruct E as [x ->]. exists x. split; [exact T|]. assert (I := iinv_turns e cs sched). fold w in I. destruct w as [[e' out] ts]. cbn [fst snd] in *.
  destruct I as (_ & _ & I3 & _). apply (I3 j c (IDone x) J T).
Qed.
Print Assumptions C169_ends.

(** at any moment *)
Theorem C169_origin : forall e cs sched,
  let e' := fst (fst (iturns (istart e cs) sched)) in
  same_attrs e e'
  /\ forall i, status_from e cs i (dget (e_state e') i) /\ role_from e cs i (dget (e_role e') i)
     /\ (dget (e_state e) i <> None -> dget (e_state e') i <> None).
Proof.
  intros e cs sched e'. assert (I := iinv_turns e cs sched). unfold e'. clear e'. destruct (iturns (istart e cs) sched) as [[e' out] ts]. cbn [fst].
  assert (S := fun i => iinv_status _ _ _ _ _ i I). destruct I as (_ & I2 & _ & I4 & _ & I6 & _). split; [exact I2|]. intros i. repeat split; auto.
Qed.
Print Assumptions C169_origin.

Theorem C169_announced : forall e cs sched j c, nth_error cs j = Some c ->
  let s := said j (snd (fst (iturns (istart e cs) sched))) in
  (forall n, In n s -> may_say e cs c n) /\ NoDup (whom s)
  /\ match c with VAnswer _ _ => (List.length s <= 1)%nat | VRole _ _ => s = [] | VInvite _ => True end.
Proof.
  intros e cs sched j c J s. assert (I := iinv_turns e cs sched). unfold s. clear s. destruct (iturns (istart e cs) sched) as [[e' out] ts]. cbn [fst snd].
  destruct I as (I1 & _ & I3 & _). destruct (nth_error ts j) as [t|] eqn:T.
  - destruct (I3 j c t J T) as (_ & N & _ & Q & L). auto.
  - exfalso. apply nth_error_None in T. assert (H := nth_error_Some cs j). rewrite J in H. assert (j < List.length cs)%nat by (apply H; discriminate). lia.
Qed.
Print Assumptions C169_announced.

(** once all calls have ended *)
Theorem C169_after : forall e cs sched,
  let w := iturns (istart e cs) sched in
  (forall j t, nth_error (snd w) j = Some t -> exists x, t = IDone x) ->
  forall i, let o := dget (e_state (fst (fst w))) i in
  (o = dget (e_state e) i \/ exists j old, (j < List.length cs)%nat /\ In (NParticipation (e_uid e) i old o) (said j (snd (fst w))))
  /\ ((forall v, ~ In (VAnswer (Some i) v) cs) -> (dget (e_state e) i = None \/ dget (e_role e) i <> None) ->
      o <> None -> dget (e_role (fst (fst w))) i <> None).
Proof.
  intros e cs sched w D i. assert (I := iinv_turns e cs sched). fold w in I. destruct w as [[e' out] ts]. cbn [fst snd] in *.
  destruct I as (_ & _ & _ & _ & I5 & _ & I7). split.
  - destruct (I5 i) as [X|(j & old & (c & J) & [X|[k X]])]; [now left| |].
    + right. exists j, old. split; [|exact X]. apply nth_error_Some. congruence.
    + destruct (D _ _ X) as [x E]. discriminate E.
  - intros A B C. destruct (I7 i A B C) as [X|(j & l & n & [X|X])]; [exact X| |]; destruct (D _ _ X) as [x E]; discriminate E.
Qed.
Print Assumptions C169_after.

(** someone who has answered, or was invited, before is safe: the invitations leave their
    status and role alone and announce nothing about them.  Missing: people without a status
    before, see C169_override_refuted *)
Theorem C169_settled_partial : forall e cs sched i, dget (e_state e) i <> None ->
  let w := iturns (istart e cs) sched in
  (dget (e_state (fst (fst w))) i = dget (e_state e) i
   \/ exists v, dget (e_state (fst (fst w))) i = Some v /\ In (VAnswer (Some i) v) cs)
  /\ (dget (e_role (fst (fst w))) i = dget (e_role e) i
      \/ exists ro, dget (e_role (fst (fst w))) i = Some ro /\ In (VRole (Some i) ro) cs)
  /\ forall j l, nth_error cs j = Some (VInvite l) -> ~ In i (whom (said j (snd (fst w)))).
Proof.
  intros e cs sched i D w. destruct (C169_origin e cs sched) as [_ H]. destruct (H i) as (S & R & _). fold w in S, R. split; [|split].
  - destruct S as [S|[(v & S1 & _ & S2)|(_ & S & _)]]; [now left|right; eauto|contradiction].
  - destruct R as [R|[(v & R1 & _ & R2)|(_ & R & _)]]; [now left|right; eauto|contradiction].
  - intros j l J I. destruct (C169_announced e cs sched j _ J) as [Q _]. fold w in Q. unfold whom in I. apply in_flat_map in I. destruct I as (n & N & I).
    destruct (Q n N) as (k & old & v & -> & _ & _ & [[E _]|(l' & _ & _ & _ & E)]); [discriminate E|]. destruct I as [<-|[]]. contradiction.
Qed.
Print Assumptions C169_settled_partial.

(** an answer that arrives while its author is being invited is taken back by the invitation,
    and so announced, although both calls one after the other, in either order, keep it *)
Theorem C169_override_refuted : forall e i v, dget (e_state e) i = None -> In v statuses -> v <> "NEEDS-ACTION"%string ->
  let w := iturns (istart e [VInvite [Some i]; VAnswer (Some i) v]) [0; 0; 1; 1; 1; 0; 0; 0; 0; 0]%nat in
  snd w = [IDone (Ok tt); IDone (Ok tt)]
  /\ dget (e_state (fst (fst w))) i = Some "NEEDS-ACTION"%string
  /\ snd (fst w) = [(1%nat, NParticipation (e_uid e) i None (Some v)); (0%nat, NParticipation (e_uid e) i (Some v) (Some "NEEDS-ACTION"%string))]
  /\ dget (e_state (mev (set_status (mev (invite e [Some i])) (Some i) (Some v)))) i = Some v
  /\ dget (e_state (mev (invite (mev (set_status e (Some i) (Some v))) [Some i]))) i = Some v.
Proof.
  intros e i v N V NV w.
  assert (W : w = (with_role (with_state (with_state e (dset (e_state e) i v)) (dset (dset (e_state e) i v) i "NEEDS-ACTION"%string)) (dset (e_role e) i "REQ-PARTICIPANT"%string),
     [(1%nat, NParticipation (e_uid e) i None (Some v)); (0%nat, NParticipation (e_uid e) i (Some v) (Some "NEEDS-ACTION"%string))], [IDone (Ok tt); IDone (Ok tt)])).
  { unfold w, istart, iturns. cbn [map fold_left igo nth_error istep replace_nth app]. rewrite N. cbn [map fold_left igo nth_error istep replace_nth app].
    assert (X : str_in v statuses = true) by now apply str_in_iff. rewrite X, ?N. cbn [opt_str_eqb map fold_left igo nth_error istep replace_nth app with_state e_state e_uid].
    rewrite dget_dset, String.eqb_refl. cbn [opt_str_eqb]. destruct (String.eqb_spec v "NEEDS-ACTION"%string); [contradiction|].
    cbn [map fold_left igo nth_error istep replace_nth app with_state e_state e_uid e_role]. reflexivity. }
  rewrite W. cbn [fst snd with_role with_state e_state]. rewrite dget_dset, String.eqb_refl. repeat split.
  - cbn [invite get_status attendee_id rbind]. rewrite N, invite_step by exact N. cbn [mbind invite mev fst].
    rewrite set_status_some; [|exact V|cbn [with_role with_state e_state]; rewrite dget_dset, String.eqb_refl; intros [= X]; congruence].
    cbn [mev fst with_role with_state e_state]. now rewrite dget_dset, String.eqb_refl.
  - rewrite set_status_some; [|exact V|congruence]. cbn [mev fst invite get_status attendee_id rbind with_state e_state]. rewrite dget_dset, String.eqb_refl. cbn [mev fst with_state e_state]. now rewrite dget_dset, String.eqb_refl.
Qed.
Print Assumptions C169_override_refuted.

(** the same person invited by two calls at the same time is announced twice, each time as
    someone without a status *)
Theorem C169_twice_refuted : forall e i, dget (e_state e) i = None ->
  let w := iturns (istart e [VInvite [Some i]; VInvite [Some i]]) [0; 0; 0; 1; 1; 1; 0; 1; 0; 1; 0; 1; 0; 1]%nat in
  snd w = [IDone (Ok tt); IDone (Ok tt)]
  /\ map snd (snd (fst w)) = [NParticipation (e_uid e) i None (Some "NEEDS-ACTION"%string); NParticipation (e_uid e) i None (Some "NEEDS-ACTION"%string)]
  /\ mnotes (mbind (invite e [Some i]) (fun e' => invite e' [Some i])) = [NParticipation (e_uid e) i None (Some "NEEDS-ACTION"%string)].
Proof.
  intros e i N w. split; [|split].
  1,2: unfold w, istart, iturns; do 4 (cbn [map fold_left igo nth_error istep replace_nth app opt_str_eqb]; rewrite ?N); reflexivity.
  cbn [invite get_status attendee_id rbind]. rewrite N, invite_step by exact N. cbn [mbind invite get_status attendee_id rbind with_role with_state e_state mnotes fst snd].
  rewrite dget_dset, String.eqb_refl. reflexivity.
Qed.
Print Assumptions C169_twice_refuted.

(** an invitation of three, one of whom answers meanwhile while another has answered before *)
Definition iv_event : event :=
  with_role (with_state (blank "m") [("ada", "DECLINED")]%string) [("ada", "CHAIR")]%string.
Definition iv_calls : list icall :=
  [VInvite [Some "ada"; Some "bob"; Some "cyd"]; VAnswer (Some "cyd") "ACCEPTED"; VRole (Some "ada") "OPT-PARTICIPANT"; VInvite [Some "bob"; None; Some "dan"]]%string.
Example C169_case :
  let w := iturns (istart iv_event iv_calls) ([0; 0; 1; 1; 3; 3; 3; 2; 1] ++ repeat 0 20 ++ repeat 3 20)%nat in
  snd w = [IDone (Ok tt); IDone (Ok tt); IDone (Ok tt); IDone (Raise AttributeError)]
  /\ e_state (fst (fst w)) = [("ada", "DECLINED"); ("cyd", "ACCEPTED"); ("bob", "NEEDS-ACTION")]%string
  /\ e_role (fst (fst w)) = [("ada", "OPT-PARTICIPANT"); ("bob", "REQ-PARTICIPANT")]%string
  /\ map fst (snd (fst w)) = [1; 0; 3]%nat
  /\ dget (e_state iv_event) "ada"%string <> None.
Proof. vm_compute. repeat split. discriminate. Qed.
(** the last part of C169_after has a case: bob does not answer and had no status *)
Example C169_after_case : (forall v, ~ In (VAnswer (Some "bob"%string) v) iv_calls) /\ dget (e_state iv_event) "bob"%string = None
  /\ (forall c, In c iv_calls -> (actions c <= 17)%nat).
Proof. split; [|split; [reflexivity|]]; intros c H; repeat destruct H as [H|H]; try discriminate; try (subst c; cbn; lia); destruct H. Qed.
(** and so have the refutations *)
Example C169_refuted_case : dget (e_state iv_event) "cyd"%string = None /\ In "ACCEPTED"%string statuses /\ "ACCEPTED"%string <> "NEEDS-ACTION"%string.
Proof. split; [reflexivity|]. split; [cbn; auto|discriminate]. Qed.
