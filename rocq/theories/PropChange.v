(** What each operation can change, and how the change is announced: C37, C84. *)
From Verif Require Import Base PyDate DateFacts Recurrent RecurMisc CalTime TimeProofs Event Storage ICal System
  QueryProofs BlockProofs EventProofs SpecProofs SystemProofs StoreProofs IdProofs ImportProofs PropEvent PropSystem PropSpec.
From Coq Require Import ZifyBool.
Ltac Zify.zify_post_hook ::= Z.div_mod_to_equations.
Local Opaque ord2ymd year_of month_of day_of ymd2ord days_in_month is_leap.

(** * C84: who can change an event object *)
(** the object an operation is called on *)
Definition called_on (o : op) : option nat :=
  match o with
  | OInvite r _ | OSetStatus r _ _ | OSetRole r _ _ | OAdjust r | OAssign r _ | OSpecify r _ => Some r
  | _ => None
  end.

Definition is_import (o : op) : Prop := match o with OImport _ _ _ _ _ => True | _ => False end.

(** Any operation other than an import, whatever its outcome, leaves every event
    object alone except the one it is called on. *)
Theorem C84_only_that_object cf s o k : ~ is_import o -> (k < List.length (sys_heap s))%nat -> called_on o <> Some k ->
  obj (sst (step cf s o)) k = obj s k.
Proof.
  intros NI K N.
  assert (CR : forall uid sp now, obj (sst (drop (create_event cf s uid sp now))) k = obj s k).
  { intros uid sp now. rewrite drop_sst. destruct (create_spec cf s uid sp now) as [(r & e & E & _)|(E & _)]; rewrite E; [|reflexivity].
    unfold sst, obj. cbn. now apply app_obj. }
  assert (OE : forall r f, r <> k -> obj (sst (on_event s r f)) k = obj s k).
  { intros r f X. unfold on_event. destruct (f (obj s r)) as [[e n] x]. unfold sst. cbn [fst]. rewrite obj_heap, replace_nth_get.
    destruct ((k =? r)%nat && (r <? List.length (sys_heap s))%nat) eqn:B; [|reflexivity]. exfalso. lia. }
  destruct o; cbn [step called_on] in *; try (apply CR); try (apply OE; congruence); try reflexivity.
  - unfold delete_event. destruct (ddel _ _); reflexivity.
  - unfold add_attendee. destruct a; reflexivity.
  - unfold remove_attendee. destruct (let* i := attendee_id a in _); reflexivity.
  - now exfalso; apply NI.
Qed.
Print Assumptions C84_only_that_object.

(** what an import that succeeds has announced *)
Definition announced (s : system) (n : list notification) (s' : system) : Prop :=
  (List.length (sys_heap s) <= List.length (sys_heap s'))%nat
  /\ forall k, (k < List.length (sys_heap s))%nat -> e_uid (obj s' k) = e_uid (obj s k)
       /\ (obj s' k = obj s k \/ In (NModified (e_uid (obj s k))) n).

Lemma announced_refl s : announced s [] s.
Proof. split; [lia|]. auto. Qed.

Lemma announced_trans a n1 b n2 c : announced a n1 b -> announced b n2 c -> announced a (n1 ++ n2) c.
Proof.
  intros [L1 A] [L2 B]. split; [lia|]. intros k K. destruct (A k K) as [U1 C1]. destruct (B k) as [U2 C2]; [lia|].
  split; [congruence|]. rewrite in_app_iff. destruct C1 as [C1|C1]; [|auto]. destruct C2 as [C2|C2]; [left; congruence|].
  rewrite U1 in C2. auto.
Qed.

Lemma delete_announced s r : announced s (snt (delete_event s r)) (sst (delete_event s r)).
Proof. unfold delete_event. destruct (ddel _ _); (split; [reflexivity|]); unfold sst, obj; cbn; auto. Qed.

Lemma delete_loop_announced l : forall s, announced s (snt (delete_loop s l)) (sst (delete_loop s l)).
Proof.
  induction l as [|u l IH]; intros s; [apply announced_refl|]. cbn [delete_loop]. rewrite sbind_slift.
  destruct (get_event s u); try apply announced_refl. apply sbind_T; [exact announced_trans|apply delete_announced|]. intros [] _. apply IH.
Qed.

Lemma sst_sret {A} s (a : A) : sst (sret s a) = s.
Proof. reflexivity. Qed.
Lemma snt_sret {A} s (a : A) : snt (sret s a) = [].
Proof. reflexivity. Qed.

Lemma import_one_announced cf s c known v u : srs (import_one cf s c known v) = Ok u -> 
  announced s (snt (import_one cf s c known v)) (sst (import_one cf s c known v)).
Proof.
  unfold import_one. destruct (v_uid v) as [uid|]; [|discriminate].
  destruct (str_in uid known).
  - intros E. apply sbind_inv_ok in E as ([] & E1 & _ & E3 & E4). rewrite E3, E4. rewrite ?sst_sret, ?snt_sret, ?app_nil_r.
    unfold import_existing in *. rewrite sbind_slift in *. destruct (get_event s uid) as [r| |] eqn:G; try discriminate.
    rewrite sbind_slift in *. destruct (import_spec _ _ _ v) as [sp| |]; try discriminate.
    rewrite sbind_slift in *. destruct (will_modify sp (obj s r)) as [[|]| |]; try discriminate; [|apply announced_refl].
    apply sbind_inv_ok in E1 as ([] & _ & _ & E5 & E6). rewrite E5, E6.
    set (m := on_event s r (set_on_object sp)) in *.
    change (announced s (snt m ++ [NModified (e_uid (obj (sst m) r))]) (sst m)). subst m.
    assert (HE : sys_heap (sst (on_event s r (set_on_object sp))) = replace_nth r (sys_heap s) (mev (set_on_object sp (obj s r)))).
    { unfold on_event, mev. destruct (set_on_object sp (obj s r)) as [[e n] x]. reflexivity. }
    assert (OB : forall k, obj (sst (on_event s r (set_on_object sp))) k
                  = if ((k =? r)%nat && (r <? List.length (sys_heap s))%nat) then mev (set_on_object sp (obj s r)) else obj s k).
    { intros k. unfold obj at 1. rewrite HE, replace_nth_get. reflexivity. }
    split; [now rewrite HE, replace_nth_length|]. intros k K. rewrite !OB.
    destruct ((k =? r)%nat && (r <? List.length (sys_heap s))%nat) eqn:B; [|auto].
    apply andb_true_iff in B as [B B2]. apply Nat.eqb_eq in B. subst k. rewrite Nat.eqb_refl. cbn [andb]. rewrite B2.
    rewrite set_on_object_uid. split; [reflexivity|]. right. apply in_app_iff. right. now left.
  - destruct (has_event s uid) eqn:H.
    + intros _. apply announced_refl.
    + intros E. apply sbind_inv_ok in E as ([] & E1 & _ & E3 & E4). rewrite E3, E4. rewrite ?sst_sret, ?snt_sret, ?app_nil_r.
      unfold import_new in *. rewrite sbind_slift in *. destruct (import_spec _ _ _ v) as [sp| |]; try discriminate.
      apply sbind_inv_ok in E1 as (r & _ & _ & E5 & E6). rewrite E5, E6. rewrite ?sst_sret, ?snt_sret, ?app_nil_r.
      destruct (create_spec cf s (Some uid) sp 0) as [(r' & e & E & _)|(E & E' & _)]; [rewrite E|rewrite E, E'; apply announced_refl].
      unfold sst. cbn [fst]. split; [cbn; rewrite app_length; lia|]. intros k K.
      assert (X : forall d q, obj (mkSys (sys_heap s ++ [e]) d (sys_source s) q) k = obj s k) by (intros d q; unfold obj; cbn [sys_heap]; now apply app_obj).
      rewrite X. auto.
Qed.

Lemma import_loop_announced cf c known l : forall s us, srs (import_loop cf s c known l) = Ok us ->
  announced s (snt (import_loop cf s c known l)) (sst (import_loop cf s c known l)).
Proof.
  induction l as [|v l IH]; intros s us E; [apply announced_refl|]. cbn [import_loop] in *.
  apply sbind_inv_ok in E as (u & E1 & E2 & E3 & E4). rewrite E3, E4.
  apply announced_trans with (b := sst (import_one cf s c known v)); [now apply (import_one_announced cf s c known v u)|].
  apply sbind_inv_ok in E2 as (us' & E5 & _ & E7 & E8). rewrite E7, E8. rewrite ?sst_sret, ?snt_sret, ?app_nil_r.
  now apply (IH _ us').
Qed.

(** An import that succeeds has announced as modified every event object whose
    contents it changed, and no object changes its id. *)
Theorem C84_import_announces cf s c parsed p cr sync s' n :
  step cf s (OImport c parsed p cr sync) = (s', n, Ok tt) ->
  forall k, (k < List.length (sys_heap s))%nat -> e_uid (obj s' k) = e_uid (obj s k)
    /\ (obj s' k <> obj s k -> In (NModified (e_uid (obj s k))) n).
Proof.
  intros E k K. cbn [step] in E.
  assert (A : announced s n s').
  { assert (R : srs (import_cal cf s c parsed p cr sync) = Ok tt) by now rewrite E.
    replace s' with (sst (import_cal cf s c parsed p cr sync)) by now rewrite E.
    replace n with (snt (import_cal cf s c parsed p cr sync)) by now rewrite E. clear E.
    unfold import_cal in *. rewrite sbind_slift in *. destruct (cal_events s c p cr) as [evs| |]; try discriminate.
    rewrite sbind_slift in *. destruct parsed as [[vs|]| |]; try discriminate; [|apply announced_refl].
    apply sbind_inv_ok in R as (us & E1 & _ & E3 & E4). rewrite E3, E4.
    apply announced_trans with (b := sst (import_loop cf s c (nodup string_dec (map e_uid evs)) vs)); [now apply (import_loop_announced cf c _ vs s us)|].
    destruct sync; [apply delete_loop_announced|apply announced_refl]. }
  destruct A as [_ A]. destruct (A k K) as [U [X|X]]; split; auto. congruence.
Qed.
Print Assumptions C84_import_announces.

(** * C37: status changes *)
Definition about (i : string) (x : notification) : bool :=
  match x with NParticipation _ j _ _ => String.eqb j i | _ => false end.

Lemma invite_about i l : forall e, let m := invite e l in
  (filter (about i) (mnotes m) = [] /\ dget (e_state (mev m)) i = dget (e_state e) i)
  \/ (dget (e_state e) i = None /\ dget (e_state (mev m)) i = Some "NEEDS-ACTION"%string
      /\ filter (about i) (mnotes m) = [NParticipation (e_uid e) i None (Some "NEEDS-ACTION"%string)]).
Proof.
  cbv zeta. induction l as [|a l IH]; intros e; [left; auto|]. cbn [invite].
  destruct a as [j|]; [|left; auto]. unfold get_status. cbn [attendee_id rbind].
  destruct (dget (e_state e) j) eqn:S; [apply IH|]. rewrite (invite_step e j S).
  set (e1 := with_role (with_state e (dset (e_state e) j "NEEDS-ACTION"%string)) (dset (e_role e) j "REQ-PARTICIPANT"%string)).
  assert (S1 : dget (e_state e1) i = if String.eqb i j then Some "NEEDS-ACTION"%string else dget (e_state e) i).
  { unfold e1. cbn. apply dget_dset. }
  assert (M : mbind (e1, [NParticipation (e_uid e) j None (Some "NEEDS-ACTION"%string)], Ok tt) (fun e2 => invite e2 l)
    = (mev (invite e1 l), NParticipation (e_uid e) j None (Some "NEEDS-ACTION"%string) :: mnotes (invite e1 l), mres (invite e1 l))).
  { unfold mbind. destruct (invite e1 l) as [[e2 n2] r2]. reflexivity. }
  match goal with |- context [mbind ?m ?f] => change (mbind m f) with (mbind (e1, [NParticipation (e_uid e) j None (Some "NEEDS-ACTION"%string)], Ok tt) f) end.
  rewrite M. clear M. match goal with |- context [mev (?a, ?b, ?c)] => change (mev (a, b, c)) with a; change (mnotes (a, b, c)) with b end. cbn [filter about].
  assert (U1 : e_uid e1 = e_uid e) by reflexivity.
  destruct (String.eqb_spec j i) as [->|N].
  - rewrite String.eqb_refl in S1. right. split; [exact S|].
    destruct (IH e1) as [[F E]|(X & _)]; [|congruence]. rewrite F. split; [|reflexivity]. congruence.
  - assert (Q : String.eqb i j = false) by now apply String.eqb_neq; auto. rewrite Q in S1.
    destruct (IH e1) as [[F E]|(X & E & F)]; [left; split; [exact F|congruence]|right]. rewrite S1 in X.
    rewrite U1 in F. auto.
Qed.

(** Inviting people and setting a status: for everybody, either their status is
    as it was and nothing is said about them, or it changed and exactly one
    notification says so; the only exception is the removal of somebody without
    a role, which raises. *)
Theorem C37_announced cf s o r s' n x i : reachable cf s -> (r < List.length (sys_heap s))%nat ->
  (exists l, o = OInvite r l) \/ (exists a st, o = OSetStatus r a st) ->
  step cf s o = (s', n, x) ->
  exists before after, get_status (obj s r) (Some i) = Ok before /\ get_status (obj s' r) (Some i) = Ok after
  /\ ((before = after /\ filter (about i) n = [])
      \/ (before <> after /\ filter (about i) n = [NParticipation (e_uid (obj s r)) i before after])
      \/ (o = OSetStatus r (Some i) None /\ x = Raise KeyError /\ get_role (obj s r) (Some i) = Ok None
          /\ after = None /\ n = [])).
Proof.
  intros H K O E. set (e := obj s r). pose proof (reachable_dicts_ok cf s r H) as D.
  assert (OE : forall f, on_event s r f = (s', n, x) -> exists e', f e = (e', n, x) /\ obj s' r = e').
  { intros f X. unfold on_event in X. fold e in X. destruct (f e) as [[e' n'] x'] eqn:F. injection X as <- <- <-.
    exists e'. split; [reflexivity|]. rewrite obj_heap, replace_nth_get.
    replace ((r =? r)%nat && (r <? List.length (sys_heap s))%nat) with true by (symmetry; apply andb_true_iff; split; [apply Nat.eqb_refl|now apply Nat.ltb_lt]).
    reflexivity. }
  unfold get_status, get_role. cbn [attendee_id rbind].
  destruct O as [(l & ->)|(a & st & ->)]; cbn [step] in E; destruct (OE _ E) as (e' & F & OB); rewrite OB; fold e; cbv beta in F.
  - exists (dget (e_state e) i), (dget (e_state e') i). split; [reflexivity|]. split; [reflexivity|].
    pose proof (invite_about i l e) as I. rewrite F in I. unfold mev, mnotes in I. cbn [fst snd] in I.
    destruct I as [[I1 I2]|(I1 & I2 & I3)]; [left; split; [now symmetry|assumption]|right; left]. rewrite I1, I2. split; [discriminate|exact I3].
  - exists (dget (e_state e) i), (dget (e_state e') i). split; [reflexivity|]. split; [reflexivity|].
    destruct (set_status_cases e a st) as [(Q & _)|[(Q & _)|[(j & _ & Q & _)|(j & -> & KS & NE & Q)]]];
      try (rewrite Q in F; injection F as <- <- <-; left; split; reflexivity).
    rewrite Q in F. fold e in D. destruct st as [st|].
    + cbn in F. unfold mbind in F. cbn in F. injection F as <- <- <-. cbn [e_state with_state]. cbn [filter about]. rewrite dget_dset.
      destruct (String.eqb_spec i j) as [->|N].
      * rewrite String.eqb_refl. right. left. split; [exact NE|reflexivity].
      * assert (Q' : String.eqb j i = false) by now apply String.eqb_neq; auto. rewrite Q'. left. split; reflexivity.
    + rewrite <- Q in F. destruct D as [D1 D2]. destruct (dget (e_role e) j) as [ro|] eqn:R.
      * rewrite set_status_none in F by (try assumption; try (split; assumption); congruence). injection F as <- <- <-.
        cbn [e_state e_role with_state with_role filter about]. rewrite dget_drem by assumption.
        destruct (String.eqb_spec i j) as [->|N].
        -- rewrite String.eqb_refl. right. left. split; [exact NE|reflexivity].
        -- assert (Q' : String.eqb j i = false) by now apply String.eqb_neq; auto. rewrite Q'. left. split; reflexivity.
      * rewrite set_status_none_norole in F by assumption. injection F as <- <- <-.
        cbn [e_state e_role with_state with_role filter]. rewrite dget_drem by assumption.
        destruct (String.eqb_spec i j) as [->|N]; [right; right|left; split; reflexivity].
        split; [reflexivity|]. split; [reflexivity|]. split; [now rewrite R|]. split; reflexivity.
Qed.
Print Assumptions C37_announced.

(** Which operations can change somebody's status in an event: inviting and
    setting a status, which say so (above), and, silently, setting a
    specification that names them and imports into a calendar that shows the
    event (announced as a modification if the import succeeds). *)
Theorem C37_who_can_change cf s o r s' n x i : reachable cf s -> (r < List.length (sys_heap s))%nat ->
  step cf s o = (s', n, x) -> get_status (obj s' r) (Some i) <> get_status (obj s r) (Some i) ->
  match o with
  | OInvite r' l => r' = r /\ In (Some i) l
  | OSetStatus r' a _ => r' = r /\ a = Some i
  | OSpecify r' sp => r' = r /\ (s_organizer sp = Some i \/ exists ro st, In (Some i, ro, st) (s_attendees sp))
  | OImport c parsed p cr sync => exists u, get_event s u = Ok r /\ visible s c p cr u /\ (x = Ok tt -> In (NModified u) n)
  | _ => False
  end.
Proof.
  intros H K E N.
  assert (A : is_import o \/ called_on o = Some r).
  { assert (D : is_import o \/ ~ is_import o) by (destruct o; cbn; auto). destruct D as [D|D]; [auto|right].
    destruct (called_on o) as [k|] eqn:C.
    - destruct (Nat.eq_dec k r) as [->|X]; [reflexivity|]. exfalso. apply N.
      pose proof (C84_only_that_object cf s o r D K ltac:(congruence)) as Q. rewrite E in Q. unfold sst in Q. cbn [fst] in Q. now rewrite Q.
    - exfalso. apply N. pose proof (C84_only_that_object cf s o r D K ltac:(congruence)) as Q. rewrite E in Q. unfold sst in Q. cbn [fst] in Q. now rewrite Q. }
  assert (OE : forall f, on_event s r f = (s', n, x) -> obj s' r = mev (f (obj s r))).
  { intros f X. unfold on_event in X. destruct (f (obj s r)) as [[e' n'] x'] eqn:F. injection X as <- <- <-.
    rewrite obj_heap, replace_nth_get.
    replace ((r =? r)%nat && (r <? List.length (sys_heap s))%nat) with true by (symmetry; apply andb_true_iff; split; [apply Nat.eqb_refl|now apply Nat.ltb_lt]).
    reflexivity. }
  destruct o as [uid sp now|j sp now|k|k l|k a st|k a role|k|k sp|k sp|j name typ| |c a|c a|c parsed p cr sync];
    (destruct A as [A|A]; cbn [is_import called_on] in A; [try contradiction|try discriminate]); try (injection A as ->); cbn [step] in E.
  - split; [reflexivity|]. rewrite (OE _ E) in N.
    destruct (in_dec (fun a b : attendee => ltac:(decide equality; apply string_dec)) (Some i) l) as [Q|Q]; [exact Q|]. exfalso. apply N.
    unfold get_status. cbn [attendee_id rbind]. f_equal. revert Q. clear. intros Q. generalize (obj s r) as e. induction l as [|a l IH]; intros e; [reflexivity|]. cbn [invite].
    destruct a as [j|]; [|reflexivity]. unfold get_status. cbn [attendee_id rbind].
    destruct (dget (e_state e) j) eqn:S; [apply IH; intros X; apply Q; now right|]. rewrite (invite_step e j S).
    unfold mbind. match goal with |- context [invite ?e1 l] => pose proof (IH (fun X => Q (or_intror X)) e1) as Y; destruct (invite e1 l) as [[e2 n2] r2] end.
    unfold mev in *. cbn [fst snd] in *. rewrite Y. cbn [e_state with_role with_state]. rewrite dget_dset.
    destruct (String.eqb_spec i j) as [->|]; [exfalso; apply Q; now left|reflexivity].
  - split; [reflexivity|]. rewrite (OE _ E) in N. destruct a as [j|].
    + destruct (string_dec j i) as [->|Q]; [reflexivity|]. exfalso. apply N. unfold get_status. cbn [attendee_id rbind]. f_equal.
      apply (C37_only_that_attendee (obj s r) (Some j) st i); [exact (reachable_dicts_ok cf s r H)|congruence].
    + exfalso. apply N. unfold get_status. cbn [attendee_id rbind]. f_equal.
      apply (C37_only_that_attendee (obj s r) None st i); [exact (reachable_dicts_ok cf s r H)|congruence].
  - apply N. rewrite (OE _ E). unfold get_status. cbn [attendee_id rbind]. f_equal. now rewrite set_role_state.
  - apply N. rewrite (OE _ E). unfold mev. cbn [fst]. unfold get_status. cbn [attendee_id rbind]. now rewrite allday_state.
  - apply N. rewrite (OE _ E). reflexivity.
  - split; [reflexivity|]. rewrite <- E in *. 
    destruct (opt_str_eqb (s_organizer sp) (Some i)) eqn:O; [left; now apply opt_str_eqb_eq|]. right.
    assert (SA : status_as sp (obj s r) i = dget (e_state (obj s r)) i).
    { unfold status_as. destruct (s_organizer sp) as [o|]; [|reflexivity]. destruct (String.eqb_spec o i) as [->|]; [|reflexivity].
      exfalso. cbn in O. rewrite String.eqb_refl in O. discriminate. }
    assert (LS : forall l, last_said l i <> None -> exists ro st, In (Some i, ro, st) l).
    { induction l as [|[[a ro] st] l IH]; cbn [last_said]; [congruence|]. destruct (last_said l i) as [y|].
      - intros _. destruct IH as (ro' & st' & X); [discriminate|]. exists ro', st'. now right.
      - destruct a as [j|]; [|congruence]. destruct (String.eqb_spec j i) as [->|]; [|congruence]. intros _. exists ro, st. now left. }
    destruct (C81_entries_exact cf s r sp H K) as (t & [(Q & _ & _ & V)|(y & l1 & a & ro & st & l2 & Q & EQ & _ & V)]); cbn [step] in Q;
      rewrite Q in E; injection E as <- <- <-; destruct (V i) as [V1 _]; unfold status_then in V1; rewrite SA in V1.
    + apply LS. intros X. rewrite X in V1. apply N. rewrite V1. reflexivity.
    + destruct (LS l1) as (ro' & st' & X); [intros X; rewrite X in V1; apply N; rewrite V1; reflexivity|].
      exists ro', st'. rewrite EQ. apply in_app_iff. auto.
  - pose proof (C45_import_frame cf s c parsed p cr sync H) as F. cbv zeta in F. cbn [step] in F. rewrite E in F. unfold sst in F. cbn [fst] in F.
    destruct F as (F1 & F2 & _).
    assert (ST : exists u, get_event s u = Ok r).
    { destruct (existsb (fun u => match get_event s u with Ok k => (k =? r)%nat | _ => false end) (dkeys (sys_store s))) eqn:X.
      - apply existsb_exists in X as (u & _ & X). exists u. destruct (get_event s u) as [k| |]; try discriminate. apply Nat.eqb_eq in X. congruence.
      - exfalso. apply N. rewrite F2; [reflexivity|exact K|]. intros u G.
        assert (Y : existsb (fun u => match get_event s u with Ok k => (k =? r)%nat | _ => false end) (dkeys (sys_store s)) = true); [|congruence].
        apply existsb_exists. exists u. rewrite G, Nat.eqb_refl. split; [|reflexivity]. unfold get_event in G.
        destruct (dget (sys_store s) u) as [k|] eqn:D; [|discriminate]. apply dget_in in D. unfold dkeys. apply in_map_iff. exists (u, k). auto. }
    destruct ST as (u & G). exists u. split; [exact G|].
    assert (U : e_uid (obj s r) = u).
    { destruct H as [h H]. apply (C42_map cf s h u H). exact G. }
    split.
    + destruct (cal_events s c p cr) as [evs| |] eqn:CE.
      * destruct (in_dec string_dec u (map e_uid evs)) as [I|I].
        -- apply in_map_iff in I as (e & Ue & He). exists evs, e. auto.
        -- exfalso. apply N. rewrite (proj2 (F1 u r G ltac:(intros (evs' & e & C1 & C2 & C3); apply I; apply in_map_iff; exists e; split; [exact C3|congruence]))). reflexivity.
      * exfalso. apply N. rewrite (proj2 (F1 u r G ltac:(intros (evs' & z & C1 & C2 & C3); congruence))). reflexivity.
      * exfalso. apply N. rewrite (proj2 (F1 u r G ltac:(intros (evs' & z & C1 & C2 & C3); congruence))). reflexivity.
    + intros ->. rewrite <- U. apply (C84_import_announces cf s c parsed p cr sync s' n E r K). intros X. apply N. now rewrite X.
Qed.
Print Assumptions C37_who_can_change.

(** the import of C45 changes the first event, and only that; bob, invited
    twice to it, is announced once *)
Example C84_case : let s := run cf0 office in
  reachable cf0 s /\ srs (step cf0 s (x_import true)) = Ok tt
  /\ e_title (obj (sst (step cf0 s (x_import true))) 0) <> e_title (obj s 0)
  /\ obj (sst (step cf0 s (x_import true))) 2 = obj s 2
  /\ In (NModified "a1"%string) (snt (step cf0 s (x_import true)))
  /\ step cf0 s (OInvite 0 [bob; bob]) = (sst (step cf0 s (OInvite 0 [bob; bob])), [NParticipation "a1" "bob" None (Some "NEEDS-ACTION"%string)], Ok tt).
Proof.
  cbv zeta. split; [apply run_reachable|]. split; [vm_compute; reflexivity|]. split; [vm_compute; discriminate|].
  split; [vm_compute; reflexivity|]. split; [vm_compute; auto|]. vm_compute. reflexivity.
Qed.

(** ann accepts, is asked again (nothing is said), and bob, who has a status but no
    role, cannot be removed; a text that is imported changes bob's status in an
    event shown, which is announced as a modification only *)
Example C37_case : let s := run cf0 (office ++ [OSetStatus 0 bob (Some "TENTATIVE"%string)]) in
  let text := OImport 0 (Ok (Some [x_event "a1" 732500 "Moved" [("bob", Some "DECLINED", None)]]))%string (None, None) None false in
  reachable cf0 s
  /\ snt (step cf0 s (OSetStatus 0 ann (Some "DECLINED"%string))) = [NParticipation "a1" "ann" (Some "ACCEPTED") (Some "DECLINED")]%string
  /\ snt (step cf0 s (OInvite 0 [ann; bob])) = []
  /\ step cf0 s (OSetStatus 0 bob None) = (sst (step cf0 s (OSetStatus 0 bob None)), [], Raise KeyError)
  /\ get_status (obj s 0) bob = Ok (Some "TENTATIVE"%string)
  /\ get_status (obj (sst (step cf0 s text)) 0) bob = Ok (Some "DECLINED"%string)
  /\ snt (step cf0 s text) = [NModified "a1"%string].
Proof.
  cbv zeta. split; [apply run_reachable|]. do 5 (split; [vm_compute; reflexivity|]). vm_compute. reflexivity.
Qed.
