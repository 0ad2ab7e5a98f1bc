(** Property theorems C157: people who answer for themselves. *)
From Verif Require Import Base PyDate Recurrent CalTime Event Storage ICal System.
From Verif Require Import QueryProofs EventProofs SystemProofs StoreProofs ShuffleProofs ShuffleSystem PropEvent PropSystem PropCalendar PropShuffle PropTold.
From Coq Require Import Sorting.Permutation.

(** ** Calls about people *)
(** event.setParticipationStatus(attendee, st), event.setParticipationRole(attendee, ro)
    and event.invite(attendees); cal.py 413-453 *)
Inductive pcall :=
| CAnswer (r : nat) (i : string) (st : option string)
| CRole (r : nat) (i : string) (ro : string)
| CInvite (r : nat) (l : list string).

(** the call on the object, cal.py 413-453 *)
Definition pcall_op (c : pcall) : op :=
  match c with
  | CAnswer r i st => OSetStatus r (Some i) st
  | CRole r i ro => OSetRole r (Some i) ro
  | CInvite r l => OInvite r (map Some l)
  end.

(** the event it is called on *)
Definition pcall_on (c : pcall) : nat := match c with CAnswer r _ _ | CRole r _ _ | CInvite r _ => r end.

(** one call after the other; what each announced and how it ended *)
Fixpoint call_all (cf : config) (s : system) (l : list pcall) : system * list (pcall * list notification * res unit) :=
  match l with
  | [] => (s, [])
  | c :: l => let '(s', n, r) := step cf s (pcall_op c) in
              let '(s'', h) := call_all cf s' l in (s'', (c, n, r) :: h)
  end.

(** ** Specification: one person on one event, on their own *)
(** what a call is to one person *)
Inductive act := Answer (st : option string) | Role (ro : string) | Invited.

(** what the call means for the person [i] on the event [r], if anything *)
Definition means (r : nat) (i : string) (c : pcall) : option act :=
  match c with
  | CAnswer r' i' st => if Nat.eqb r' r && String.eqb i' i then Some (Answer st) else None
  | CRole r' i' ro => if Nat.eqb r' r && String.eqb i' i then Some (Role ro) else None
  | CInvite r' l => if Nat.eqb r' r && existsb (String.eqb i) l then Some Invited else None
  end.

(** their status and role, if any *)
Record person := Person { p_status : option string; p_role : option string }.

Definition known_status (x : string) : bool :=
  existsb (String.eqb x) ["NEEDS-ACTION"; "ACCEPTED"; "DECLINED"; "TENTATIVE"; "DELEGATED"]%string.
Definition known_role (x : string) : bool :=
  existsb (String.eqb x) ["CHAIR"; "REQ-PARTICIPANT"; "OPT-PARTICIPANT"; "NON-PARTICIPANT"]%string.
Definition same (a b : option string) : bool :=
  match a, b with Some x, Some y => String.eqb x y | None, None => true | _, _ => false end.

(** what becomes of them, the change announced, and how the call ends *)
Definition by_oneself (p : person) (a : act) : person * option (option string * option string) * res unit :=
  match a with
  | Answer (Some x) =>
      if negb (known_status x) then (p, None, Raise AssertionError)
      else if same (p_status p) (Some x) then (p, None, Ok tt)
      else (Person (Some x) (p_role p), Some (p_status p, Some x), Ok tt)
  | Answer None =>
      match p_status p, p_role p with
      | None, _ => (p, None, Ok tt)
      | Some _, Some _ => (Person None None, Some (p_status p, None), Ok tt)
      | Some _, None => (Person None None, None, Raise KeyError)
      end
  | Role x => if known_role x then (Person (p_status p) (Some x), None, Ok tt) else (p, None, Raise AssertionError)
  | Invited =>
      match p_status p with
      | Some _ => (p, None, Ok tt)
      | None => (Person (Some "NEEDS-ACTION") (Some "REQ-PARTICIPANT"), Some (None, Some "NEEDS-ACTION"), Ok tt)%string
      end
  end.

(** all that is announced about them, and how each of their calls ends *)
Fixpoint oneself (u i : string) (p : person) (l : list act) : person * list (list notification * res unit) :=
  match l with
  | [] => (p, [])
  | a :: l => let '(p', d, x) := by_oneself p a in
              let '(p'', h) := oneself u i p' l in
              (p'', (match d with Some (old, new) => [NParticipation u i old new] | None => [] end, x) :: h)
  end.

(** what concerns the person in a run *)
Definition about (i : string) (n : notification) : bool :=
  match n with NParticipation _ j _ _ => String.eqb j i | _ => false end.
Fixpoint meanings (r : nat) (i : string) (l : list pcall) : list act :=
  match l with [] => [] | c :: l => match means r i c with Some a => a :: meanings r i l | None => meanings r i l end end.
Fixpoint lot (r : nat) (i : string) (h : list (pcall * list notification * res unit)) : list (list notification * res unit) :=
  match h with
  | [] => []
  | (c, n, x) :: h => match means r i c with Some _ => (filter (about i) n, x) :: lot r i h | None => lot r i h end
  end.

(** the person as the event shows them *)
Definition seen (s : system) (r : nat) (i : string) : person := Person (dget (e_state (obj s r)) i) (dget (e_role (obj s r)) i).

(** ** one event *)
Definition look (e : event) (i : string) : person := Person (dget (e_state e) i) (dget (e_role e) i).

Definition mut_of (c : pcall) (e : event) : mut :=
  match c with
  | CAnswer _ i st => set_status e (Some i) st
  | CRole _ i ro => set_role e (Some i) ro
  | CInvite _ l => invite e (map Some l)
  end.
Lemma pcall_step cf s c : step cf s (pcall_op c) = on_event s (pcall_on c) (mut_of c).
Proof. destruct c; reflexivity. Qed.

Lemma known_status_ok x : str_in x statuses = known_status x.
Proof. unfold str_in, statuses, known_status. cbn. rewrite ?orb_false_r. repeat (destruct (String.eqb x _); cbn; try reflexivity). Qed.
Lemma known_role_ok x : str_in x roles = known_role x.
Proof. unfold str_in, roles, known_role. cbn. rewrite ?orb_false_r. repeat (destruct (String.eqb x _); cbn; try reflexivity). Qed.

Definition told_of (u i : string) (d : option (option string * option string)) : list notification :=
  match d with Some (old, new) => [NParticipation u i old new] | None => [] end.

Definition neat (e : event) : Prop := NoDup (dkeys (e_state e)) /\ NoDup (dkeys (e_role e)).

Lemma filter_ids u i f ids : NoDup ids ->
  filter (about i) (map (fun j => NParticipation u j None f) ids) = if str_in i ids then [NParticipation u i None f] else [].
Proof.
  induction ids as [|j ids IH]; intros N; [reflexivity|]. inversion N as [|? ? N1 N2]; subst. cbn [map filter about].
  unfold str_in in *. cbn [existsb]. rewrite (String.eqb_sym i j). destruct (String.eqb_spec j i) as [->|NE]; [|now apply IH].
  rewrite IH by exact N2. cbn [orb]. destruct (existsb (String.eqb i) ids) eqn:E; [|reflexivity].
  apply existsb_exists in E as (k & K & Q). apply String.eqb_eq in Q as ->. contradiction.
Qed.

Lemma mut_own c e : neat e ->
  let m := mut_of c e in
  same_attrs e (fst (fst m)) /\ neat (fst (fst m))
  /\ Forall (fun n => exists j old new, n = NParticipation (e_uid e) j old new) (snd (fst m))
  /\ forall i, match means (pcall_on c) i c with
     | Some a => let '(p', d, x) := by_oneself (look e i) a in
                 look (fst (fst m)) i = p' /\ filter (about i) (snd (fst m)) = told_of (e_uid e) i d /\ snd m = x
     | None => look (fst (fst m)) i = look e i /\ filter (about i) (snd (fst m)) = []
     end.
Proof.
  intros [NS NR] m. subst m. destruct c as [r i st|r i ro|r l]; unfold mut_of, means, pcall_on; rewrite ?Nat.eqb_refl; cbn [andb].
  - (* setParticipationStatus *)
    unfold set_status. destruct st as [x|].
    + rewrite known_status_ok. destruct (known_status x) eqn:K.
      2:{ cbn [fst snd]. split; [apply same_attrs_refl|]. split; [now split|]. split; [constructor|]. intros j.
          destruct (String.eqb i j); cbn [by_oneself]; rewrite ?K; cbn; auto. }
      unfold get_status. cbn [attendee_id rbind]. destruct (opt_str_eqb (dget (e_state e) i) (Some x)) eqn:Q.
      * cbn [fst snd]. split; [apply same_attrs_refl|]. split; [now split|]. split; [constructor|]. intros j.
        destruct (String.eqb_spec i j) as [<-|NE]; cbn [by_oneself]; rewrite ?K; cbn [negb look p_status p_role]; auto.
        assert (Z : same (dget (e_state e) i) (Some x) = true) by (destruct (dget (e_state e) i); [exact Q|discriminate Q]). rewrite Z. cbn. auto.
      * cbn [set_status_raw attendee_id mbind fst snd app]. split; [repeat split|].
        split; [split; [cbn; now apply dset_nodup|exact NR]|]. split; [repeat constructor; eauto|]. intros j.
        destruct (String.eqb_spec i j) as [<-|NE]; cbn [by_oneself]; rewrite ?K; cbn [negb look p_status p_role].
        -- assert (Z : same (dget (e_state e) i) (Some x) = false) by (destruct (dget (e_state e) i); [exact Q|reflexivity]). rewrite Z.
           cbn [told_of filter about]. rewrite String.eqb_refl. unfold look. cbn [e_state e_role with_state]. rewrite dget_dset, String.eqb_refl. auto.
        -- cbn [filter about]. destruct (String.eqb_spec i j); [contradiction|]. split; [|reflexivity]. unfold look. cbn [e_state e_role with_state].
           rewrite dget_dset. destruct (String.eqb_spec j i); [congruence|reflexivity].
    + unfold get_status. cbn [attendee_id rbind]. destruct (dget (e_state e) i) as [o|] eqn:S.
      2:{ cbn [opt_str_eqb fst snd]. split; [apply same_attrs_refl|]. split; [now split|]. split; [constructor|]. intros j.
          destruct (String.eqb_spec i j) as [<-|NE]; cbn [by_oneself look p_status]; rewrite ?S; cbn; auto. }
      cbn [opt_str_eqb]. unfold set_status_raw. cbn [attendee_id]. unfold ddel at 1 3 5. rewrite S.
      unfold ddel. cbn [e_role with_state]. destruct (dget (e_role e) i) as [ro|] eqn:R; cbn [mbind fst snd app].
      * split; [repeat split|]. split; [split; cbn; now apply drem_nodup'|]. split; [repeat constructor; eauto|]. intros j.
        destruct (String.eqb_spec i j) as [<-|NE]; cbn [by_oneself look p_status p_role]; unfold look; cbn [e_state e_role with_state with_role filter about told_of];
          rewrite ?S, ?R; cbv beta iota; cbn [mbind app fst snd e_state e_role e_uid with_state with_role filter about told_of]; rewrite ?dget_drem by assumption.
        -- rewrite String.eqb_refl. auto.
        -- destruct (String.eqb_spec i j); [contradiction|]. destruct (String.eqb_spec j i); [congruence|]. auto.
      * split; [repeat split|]. split; [split; [cbn; now apply drem_nodup'|exact NR]|]. split; [constructor|]. intros j.
        destruct (String.eqb_spec i j) as [<-|NE]; cbn [by_oneself look p_status p_role]; unfold look; cbn [e_state e_role with_state with_role filter about told_of];
          rewrite ?S, ?R; cbv beta iota; cbn [mbind app fst snd e_state e_role e_uid with_state with_role filter about told_of]; rewrite ?dget_drem by assumption.
        -- rewrite String.eqb_refl, ?R. auto.
        -- destruct (String.eqb_spec j i); [congruence|]. auto.
  - (* setParticipationRole *)
    unfold set_role. rewrite known_role_ok. destruct (known_role ro) eqn:K; cbn [attendee_id fst snd].
    + split; [repeat split|]. split; [split; [exact NS|cbn; now apply dset_nodup]|]. split; [constructor|]. intros j.
      destruct (String.eqb_spec i j) as [<-|NE]; cbn [by_oneself]; rewrite ?K; unfold look; cbn [e_state e_role with_role p_status told_of filter]; rewrite dget_dset.
      * now rewrite String.eqb_refl.
      * destruct (String.eqb_spec j i); [congruence|]. auto.
    + split; [apply same_attrs_refl|]. split; [now split|]. split; [constructor|]. intros j.
      destruct (String.eqb_spec i j) as [<-|NE]; cbn [by_oneself]; rewrite ?K; cbn; auto.
  - (* invite *)
    assert (NN : ~ In None (map (@Some string) l)) by (intros X; apply in_map_iff in X as (? & ? & _); discriminate).
    pose proof (invite_pres neat) as P. destruct (invite_spec (map Some l) e NN) as (e' & ids & E & A & N & I & D1 & D2).
    rewrite E. cbn [fst snd]. split; [exact A|]. split.
    { specialize (P (fun e0 i H _ => conj (dset_nodup _ _ _ (proj1 H)) (dset_nodup _ _ _ (proj2 H)))).
      specialize (P (map Some l) e (conj NS NR)). rewrite E in P. exact P. }
    split; [apply Forall_forall; intros n H; apply in_map_iff in H as (j & <- & _); eauto|].
    intros j. rewrite filter_ids by exact N. unfold look. rewrite D1, D2.
    assert (X : In (Some j) (map Some l) <-> existsb (String.eqb j) l = true).
    { rewrite existsb_exists, in_map_iff. split; [intros (k & Q & K); injection Q as ->; exists j; split; [exact K|apply String.eqb_refl]|].
      intros (k & K & Q). apply String.eqb_eq in Q as ->. eauto. }
    destruct (existsb (String.eqb j) l).
    + cbn [by_oneself p_status]. destruct (dget (e_state e) j) as [o|] eqn:S.
      * replace (str_in j ids) with false; [cbn; auto|]. symmetry. apply not_true_iff_false. intros Q. apply str_in_iff, I in Q. destruct Q; congruence.
      * replace (str_in j ids) with true; [cbn; auto|]. symmetry. apply str_in_iff, I. split; [now apply X|exact S].
    + replace (str_in j ids) with false; [auto|]. symmetry. apply not_true_iff_false. intros Q. apply str_in_iff, I in Q. destruct Q as [Q _]. apply X in Q. discriminate.
Qed.

Lemma seen_look s r i : seen s r i = look (obj s r) i.
Proof. reflexivity. Qed.

Lemma means_other r i c : pcall_on c <> r -> means r i c = None.
Proof. intros NE. destruct c as [r' i' st|r' i' ro|r' l]; cbn [means pcall_on] in *; destruct (Nat.eqb_spec r' r); try contradiction; reflexivity. Qed.

(** one call *)
Lemma call_one cf s c : reachable cf s ->
  let m := step cf s (pcall_op c) in
  reachable cf (sst m) /\ List.length (sys_heap (sst m)) = List.length (sys_heap s)
  /\ sys_store (sst m) = sys_store s /\ sys_source (sst m) = sys_source s /\ sys_cals (sst m) = sys_cals s
  /\ (forall r, same_attrs (obj s r) (obj (sst m) r))
  /\ Forall (fun n => exists j old new, n = NParticipation (e_uid (obj s (pcall_on c))) j old new /\ means (pcall_on c) j c <> None) (snt m)
  /\ forall r i, (r < List.length (sys_heap s))%nat ->
     match means r i c with
     | Some a => let '(p', d, x) := by_oneself (seen s r i) a in
                 seen (sst m) r i = p' /\ filter (about i) (snt m) = told_of (e_uid (obj s r)) i d /\ srs m = x
     | None => seen (sst m) r i = seen s r i
     end.
Proof.
  intros R m. subst m. split; [now apply reachable_step|]. rewrite pcall_step. unfold on_event.
  destruct (mut_own c (obj s (pcall_on c)) (reachable_dicts_ok cf s _ R)) as (A & _ & F & M).
  destruct (mut_of c (obj s (pcall_on c))) as [[e n] x]. unfold sst, snt, srs in *. cbn [fst snd] in *.
  split; [apply replace_nth_length|]. do 3 (split; [reflexivity|]). split; [|split].
  - intros r. rewrite obj_heap, replace_nth_get. destruct (Nat.eqb_spec r (pcall_on c)) as [->|]; cbn [andb]; [|apply same_attrs_refl].
    destruct (Nat.ltb (pcall_on c) (List.length (sys_heap s))); [exact A|apply same_attrs_refl].
  - rewrite Forall_forall in F. apply Forall_forall. intros k K. destruct (F k K) as (j & old & new & ->). exists j, old, new. split; [reflexivity|].
    intros Q. specialize (M j). rewrite Q in M. destruct M as [_ M].
    assert (X : In (NParticipation (e_uid (obj s (pcall_on c))) j old new) (filter (about j) n)) by (apply filter_In; split; [exact K|apply String.eqb_refl]).
    rewrite M in X. exact X.
  - intros r i L. rewrite !seen_look, obj_heap, replace_nth_get. destruct (Nat.eqb_spec r (pcall_on c)) as [->|NE]; cbn [andb].
    + destruct (Nat.ltb_spec (pcall_on c) (List.length (sys_heap s))); [|lia]. specialize (M i). destruct (means (pcall_on c) i c); [exact M|apply M].
    + now rewrite means_other by congruence.
Qed.

(** ** The theorems *)
(** What a run of such calls makes of one person on one event, what it announces
    about them and how the calls about them end is what their own calls make of
    it; the calls about the others do not matter. *)
Theorem C157_alone : forall cf l s r i, reachable cf s -> (r < List.length (sys_heap s))%nat ->
  let m := call_all cf s l in
  let own := oneself (e_uid (obj s r)) i (seen s r i) (meanings r i l) in
  seen (fst m) r i = fst own /\ lot r i (snd m) = snd own.
Proof.
  intros cf l. induction l as [|c l IH]; intros s r i R L; cbv zeta; [split; reflexivity|]. cbn [call_all meanings].
  destruct (call_one cf s c R) as (R' & L' & _ & _ & _ & A & _ & M). specialize (M r i L).
  destruct (step cf s (pcall_op c)) as [[s' n] x]. unfold sst, snt, srs in *. cbn [fst snd] in *.
  specialize (IH s' r i R' ltac:(now rewrite L')). cbv zeta in IH. destruct (call_all cf s' l) as [s2 h]. cbn [fst snd lot] in *.
  destruct (A r) as (U & _). rewrite U in IH. destruct (means r i c) as [a|].
  - cbn [oneself]. destruct (by_oneself (seen s r i) a) as [[p' d] y]. destruct M as (M1 & M2 & M3). rewrite M1 in IH.
    destruct (oneself (e_uid (obj s r)) i p' (meanings r i l)) as [p2 h2]. cbn [fst snd] in *. destruct IH as [IH1 IH2].
    split; [exact IH1|]. now rewrite M2, M3, IH2.
  - rewrite M in IH. exact IH.
Qed.
Print Assumptions C157_alone.

(** Nothing else happens: no event, attendee or calendar comes or goes, no other
    attribute changes, and a call announces changes of those it is about only. *)
Theorem C157_only : forall cf l s, reachable cf s ->
  let m := call_all cf s l in
  reachable cf (fst m)
  /\ List.length (sys_heap (fst m)) = List.length (sys_heap s)
  /\ sys_store (fst m) = sys_store s /\ sys_source (fst m) = sys_source s /\ sys_cals (fst m) = sys_cals s
  /\ (forall r, same_attrs (obj s r) (obj (fst m) r))
  /\ map (fun h => fst (fst h)) (snd m) = l
  /\ Forall (fun h => Forall (fun n => exists j old new, n = NParticipation (e_uid (obj s (pcall_on (fst (fst h))))) j old new
       /\ means (pcall_on (fst (fst h))) j (fst (fst h)) <> None) (snd (fst h))) (snd m).
Proof.
  intros cf l. induction l as [|c l IH]; intros s R; cbv zeta.
  { cbn. split; [exact R|]. do 4 (split; [reflexivity|]). split; [intros; apply same_attrs_refl|]. split; [reflexivity|constructor]. }
  cbn [call_all]. destruct (call_one cf s c R) as (R' & L' & S1 & S2 & S3 & A & F & _).
  destruct (step cf s (pcall_op c)) as [[s' n] x]. unfold sst, snt, srs in *. cbn [fst snd] in *.
  destruct (IH s' R') as (I1 & I2 & I3 & I4 & I5 & I6 & I7 & I8). destruct (call_all cf s' l) as [s2 h]. cbn [fst snd map] in *.
  split; [exact I1|]. split; [now rewrite I2|]. split; [now rewrite I3|]. split; [now rewrite I4|]. split; [now rewrite I5|].
  split; [intros r; eapply same_attrs_trans; [apply A|apply I6]|]. split; [now rewrite I7|].
  constructor; [exact F|]. eapply Forall_impl; [|exact I8]. intros y Y.
  eapply Forall_impl; [|exact Y]. intros k (j & old & new & -> & NM). destruct (A (pcall_on (fst (fst y)))) as (U & _). rewrite U. eauto.
Qed.
Print Assumptions C157_only.

(** Two runs in which each person makes the same calls on each event end alike,
    in whatever order the people take turns; each person's changes are announced
    alike and their calls end alike. *)
Theorem C157_turns : forall cf l l' s, reachable cf s ->
  (forall r i, meanings r i l = meanings r i l') ->
  let m := call_all cf s l in let m' := call_all cf s l' in
  sys_alike (fst m) (fst m') /\ forall r i, (r < List.length (sys_heap s))%nat -> lot r i (snd m) = lot r i (snd m').
Proof.
  intros cf l l' s R H m m'. destruct (C157_only cf l s R) as (R1 & L1 & A1 & B1 & C1 & D1 & _). destruct (C157_only cf l' s R) as (R2 & L2 & A2 & B2 & C2 & D2 & _).
  fold m in R1, L1, A1, B1, C1, D1. fold m' in R2, L2, A2, B2, C2, D2.
  assert (E : forall r i, (r < List.length (sys_heap s))%nat -> seen (fst m) r i = seen (fst m') r i /\ lot r i (snd m) = lot r i (snd m')).
  { intros r i L. destruct (C157_alone cf l s r i R L) as [P1 Q1]. destruct (C157_alone cf l' s r i R L) as [P2 Q2]. fold m in P1, Q1. fold m' in P2, Q2.
    rewrite H in P1, Q1. split; [exact (eq_trans P1 (eq_sym P2))|exact (eq_trans Q1 (eq_sym Q2))]. }
  split; [|intros r i L; now apply E].
  destruct (C120_itself cf _ R1) as (_ & X2 & X3 & X4).
  split; [|rewrite A2, B2, C2, <- A1, <- B1, <- C1; auto].
  assert (T : forall h1 h2 : list event, List.length h1 = List.length h2 ->
    (forall k, (k < List.length h1)%nat -> event_alike (nth k h1 (blank "")) (nth k h2 (blank ""))) -> Forall2 event_alike h1 h2).
  { induction h1 as [|a h1 IH]; intros [|b h2] Q N; try discriminate; constructor; [apply (N 0%nat); cbn; lia|].
    apply IH; [now injection Q|]. intros k K. apply (N (S k)). cbn. lia. }
  apply T; [now rewrite L1, L2|]. intros k K. rewrite L1 in K. fold (obj (fst m) k). fold (obj (fst m') k).
  pose proof (same_attrs_trans _ _ _ (D1 k) (same_attrs_refl _)) as Y1. pose proof (D2 k) as Y2.
  apply C120_event. unfold same_attrs in Y1, Y2.
  destruct Y1 as (a1&a2&a3&a4&a5&a6&a7&a8&a9&a10&a11&a12&a13&a14), Y2 as (b1&b2&b3&b4&b5&b6&b7&b8&b9&b10&b11&b12&b13&b14).
  rewrite a1,a2,a3,a4,a5,a6,a7,a8,a9,a10,a11,a12,a13,a14,b1,b2,b3,b4,b5,b6,b7,b8,b9,b10,b11,b12,b13,b14.
  split; [repeat split|]. destruct (reachable_dicts_ok cf (fst m) k R1) as [N1 N2]. destruct (reachable_dicts_ok cf (fst m') k R2) as [N3 N4].
  split; (apply same_intro; [assumption..|]); intros i; destruct (E k i K) as [Z _]; unfold seen in Z; now injection Z.
Qed.
Print Assumptions C157_turns.

(** Ann and Bob answer on the same two meetings, at first one after the other,
    then in turns; Ann is removed twice, Bob answers something unknown. *)
Definition ann_calls : list pcall := [CAnswer 1 "ann" (Some "DECLINED"); CRole 1 "ann" "CHAIR"; CAnswer 1 "ann" None; CAnswer 1 "ann" None; CAnswer 0 "ann" (Some "TENTATIVE")]%string.
Definition bob_calls : list pcall := [CInvite 0 ["bob"; "bob"]; CAnswer 1 "bob" (Some "ACCEPTED"); CAnswer 1 "bob" (Some "MAYBE"); CAnswer 0 "bob" (Some "ACCEPTED"); CRole 1 "bob" "GUEST"]%string.
Fixpoint by_turns {A} (l l' : list A) : list A :=
  match l, l' with x :: l, y :: l' => x :: y :: by_turns l l' | [], _ => l' | _, [] => l end.
Example C157_case : let s := run cf0 office in
  let m := call_all cf0 s (ann_calls ++ bob_calls) in let m' := call_all cf0 s (by_turns bob_calls ann_calls) in
  reachable cf0 s /\ List.length (sys_heap s) = 3%nat
  /\ (forall r i, meanings r i (ann_calls ++ bob_calls) = meanings r i (by_turns bob_calls ann_calls))
  /\ seen (fst m) 1 "ann" = Person None None /\ seen (fst m) 1 "bob" = Person (Some "ACCEPTED"%string) (Some "CHAIR"%string)
  /\ seen (fst m) 0 "bob" = Person (Some "ACCEPTED"%string) (Some "REQ-PARTICIPANT"%string)
  /\ lot 1 "ann" (snd m') = [([NParticipation "a2" "ann" (Some "ACCEPTED") (Some "DECLINED")], Ok tt); ([], Ok tt);
       ([NParticipation "a2" "ann" (Some "DECLINED") None], Ok tt); ([], Ok tt)]%string
  /\ lot 1 "bob" (snd m') = [([NParticipation "a2" "bob" (Some "TENTATIVE") (Some "ACCEPTED")], Ok tt); ([], Raise AssertionError); ([], Raise AssertionError)]%string
  /\ snd m <> snd m'.
Proof.
  split; [apply run_reachable|]. split; [vm_compute; reflexivity|]. split.
  { intros r i. unfold ann_calls, bob_calls. cbn [app by_turns meanings means existsb]. rewrite !(String.eqb_sym i).
    destruct (Nat.eqb 0 r) eqn:Z, (Nat.eqb 1 r) eqn:O;
      [apply Nat.eqb_eq in Z, O; congruence|..]; cbn [andb]; destruct (String.eqb_spec "ann" i) as [<-|]; cbn; try reflexivity; destruct (String.eqb "bob" i); reflexivity. }
  do 5 (split; [vm_compute; reflexivity|]). vm_compute. discriminate.
Qed.
