(** Lemmas for C120: what is computed from a dictionary does not depend on the
    order in which the dictionary is iterated. *)
From Verif Require Import Base PyDate Recurrent Util CalTime Event Storage ICal System.
From Verif Require Import TimeProofs UtilProofs EventProofs SystemProofs QueryProofs ImportProofs BlockProofs.
From Coq Require Import Sorting.Permutation.

(** the same Python dictionary, iterated in another order *)
Definition same_dict {V} (d1 d2 : dict V) : Prop := NoDup (dkeys d1) /\ Permutation d1 d2.

(** the same event, up to the order of its two dictionaries *)
Inductive event_alike : event -> event -> Prop :=
| event_alike_intro e st1 st2 ro1 ro2 : same_dict st1 st2 -> same_dict ro1 ro2 ->
    event_alike (with_role (with_state e st1) ro1) (with_role (with_state e st2) ro2).

(** the same elements up to [R], in another order *)
Definition listed_alike {A B} (R : A -> B -> Prop) (l1 : list A) (l2 : list B) : Prop :=
  exists l, Permutation l1 l /\ Forall2 R l l2.

(** both calls give a value, and then related values, or neither does *)
Definition ends_alike {A B} (R : A -> B -> Prop) (r1 : res A) (r2 : res B) : Prop :=
  match r1, r2 with
  | Ok a, Ok b => R a b
  | Ok _, _ | _, Ok _ => False
  | _, _ => True
  end.

(** the same state of the system, up to the order of every dictionary in it *)
Definition sys_alike (s1 s2 : system) : Prop :=
  Forall2 event_alike (sys_heap s1) (sys_heap s2)
  /\ same_dict (sys_store s1) (sys_store s2)
  /\ same_dict (sys_source s1) (sys_source s2)
  /\ Forall2 same_dict (sys_cals s1) (sys_cals s2).

(** ** dictionaries *)
Lemma dict_nodup {V} (d : dict V) : NoDup (dkeys d) -> NoDup d.
Proof.
  unfold dkeys. induction d as [|kv d IH]; intros H; [constructor|]. cbn in H. inversion H as [|? ? H1 H2]; subst.
  constructor; [|auto]. intros X. apply H1. now apply in_map.
Qed.

Lemma same_keys {V} (d1 d2 : dict V) : same_dict d1 d2 -> Permutation (dkeys d1) (dkeys d2).
Proof. intros [_ P]. now apply Permutation_map. Qed.

Lemma same_nodup2 {V} (d1 d2 : dict V) : same_dict d1 d2 -> NoDup (dkeys d2).
Proof. intros S. eapply Permutation_NoDup; [apply same_keys; exact S|apply S]. Qed.

Lemma same_get {V} (d1 d2 : dict V) k : same_dict d1 d2 -> dget d1 k = dget d2 k.
Proof.
  intros S. pose proof (same_nodup2 _ _ S) as N2. destruct S as [N1 P]. destruct (dget d1 k) as [v|] eqn:D.
  - symmetry. apply in_dget; [exact N2|]. eapply Permutation_in; [exact P|]. now apply dget_in.
  - symmetry. apply dget_none. apply dget_none in D. intros X. apply D.
    eapply Permutation_in; [symmetry; apply Permutation_map; exact P|exact X].
Qed.

Lemma same_intro {V} (d1 d2 : dict V) : NoDup (dkeys d1) -> NoDup (dkeys d2) ->
  (forall k, dget d1 k = dget d2 k) -> same_dict d1 d2.
Proof.
  intros N1 N2 G. split; [exact N1|]. apply NoDup_Permutation; try now apply dict_nodup.
  intros [k v]. split; intros H; apply in_dget in H; try assumption; apply dget_in; [now rewrite <- G|now rewrite G].
Qed.

Lemma same_refl {V} (d : dict V) : NoDup (dkeys d) -> same_dict d d.
Proof. now split. Qed.

Lemma same_sym {V} (d1 d2 : dict V) : same_dict d1 d2 -> same_dict d2 d1.
Proof. intros S. split; [eapply same_nodup2; exact S|]. symmetry. apply S. Qed.

Lemma same_trans {V} (d1 d2 d3 : dict V) : same_dict d1 d2 -> same_dict d2 d3 -> same_dict d1 d3.
Proof. intros [N P] [_ Q]. split; [exact N|]. now transitivity d2. Qed.

Lemma same_set {V} (d1 d2 : dict V) k v : same_dict d1 d2 -> same_dict (dset d1 k v) (dset d2 k v).
Proof.
  intros S. apply same_intro.
  - apply dset_nodup, S.
  - apply dset_nodup. eapply same_nodup2; exact S.
  - intros k'. rewrite !dget_dset. now rewrite (same_get d1 d2 k' S).
Qed.

Lemma drem_nodup' {V} (d : dict V) k : NoDup (dkeys d) -> NoDup (dkeys (drem d k)).
Proof.
  induction d as [|[k' v] d IH]; intros N; [constructor|]. cbn in *. inversion N as [|? ? N1 N2]; subst.
  destruct (String.eqb k k'); [exact N2|]. cbn. constructor; [|auto].
  intros X. apply N1. clear -X. induction d as [|[k2 v2] d IH]; cbn in *; [exact X|].
  destruct (String.eqb k k2); [now right|]. destruct X as [X|X]; [now left|right; auto].
Qed.

Lemma same_rem {V} (d1 d2 : dict V) k : same_dict d1 d2 -> same_dict (drem d1 k) (drem d2 k).
Proof.
  intros S. pose proof (same_nodup2 _ _ S) as N2. apply same_intro.
  - apply drem_nodup', S.
  - now apply drem_nodup'.
  - intros k'. rewrite !dget_drem by (exact N2 || apply S). now rewrite (same_get d1 d2 k' S).
Qed.

Lemma same_length {V} (d1 d2 : dict V) : same_dict d1 d2 -> List.length d1 = List.length d2.
Proof. intros [_ P]. now apply Permutation_length. Qed.

(** [del d[k]] *)
Lemma same_del {V} (d1 d2 : dict V) k : same_dict d1 d2 ->
  (exists r1 r2, ddel d1 k = Ok r1 /\ ddel d2 k = Ok r2 /\ same_dict r1 r2)
  \/ (ddel d1 k = Raise KeyError /\ ddel d2 k = Raise KeyError).
Proof.
  intros S. unfold ddel. rewrite <- (same_get d1 d2 k S). destruct (dget d1 k); [left|now right].
  do 2 eexists. split; [reflexivity|]. split; [reflexivity|]. now apply same_rem.
Qed.

(** ** events *)
Lemma blank_alike u : event_alike (blank u) (blank u).
Proof. apply (event_alike_intro (blank u) [] [] [] []); split; constructor. Qed.

Lemma alike_sym e1 e2 : event_alike e1 e2 -> event_alike e2 e1.
Proof. intros [e st1 st2 ro1 ro2 S R]. constructor; now apply same_sym. Qed.

Lemma upd_inj e e' st st' ro ro' : with_role (with_state e st) ro = with_role (with_state e' st') ro' ->
  st = st' /\ ro = ro' /\ forall a b, with_role (with_state e a) b = with_role (with_state e' a) b.
Proof.
  intros H. split; [exact (f_equal e_state H)|]. split; [exact (f_equal e_role H)|]. intros a b.
  exact (f_equal (fun x => with_role (with_state x a) b) H).
Qed.

Lemma alike_trans e1 e2 e3 : event_alike e1 e2 -> event_alike e2 e3 -> event_alike e1 e3.
Proof.
  intros [e st1 st2 ro1 ro2 S R] H. remember (with_role (with_state e st2) ro2) as x eqn:X. revert X.
  destruct H as [e' st2' st3 ro2' ro3 S' R']. intros X. apply upd_inj in X as (-> & -> & X). rewrite <- (X st3 ro3) || rewrite (X st3 ro3).
  constructor; eapply same_trans; eassumption.
Qed.

Lemma alike_uid e1 e2 : event_alike e1 e2 -> e_uid e1 = e_uid e2.
Proof. now intros []. Qed.

Lemma alike_status e1 e2 a : event_alike e1 e2 -> get_status e1 a = get_status e2 a.
Proof.
  intros [e st1 st2 ro1 ro2 S R]. unfold get_status. destruct (attendee_id a) as [i| |]; cbn [rbind]; try reflexivity.
  f_equal. now apply same_get.
Qed.

Lemma alike_role e1 e2 a : event_alike e1 e2 -> get_role e1 a = get_role e2 a.
Proof.
  intros [e st1 st2 ro1 ro2 S R]. unfold get_role. destruct (attendee_id a) as [i| |]; cbn [rbind]; try reflexivity.
  f_equal. now apply same_get.
Qed.

(** ** mutators *)
Definition mut_alike (m1 m2 : mut) : Prop :=
  event_alike (fst (fst m1)) (fst (fst m2)) /\ snd (fst m1) = snd (fst m2) /\ snd m1 = snd m2.

Lemma mut_intro e1 e2 n r : event_alike e1 e2 -> mut_alike (e1, n, r) (e2, n, r).
Proof. intros H. now repeat split. Qed.

Lemma mbind_alike m1 m2 f1 f2 : mut_alike m1 m2 -> (forall e1 e2, event_alike e1 e2 -> mut_alike (f1 e1) (f2 e2)) ->
  mut_alike (mbind m1 f1) (mbind m2 f2).
Proof.
  destruct m1 as [[e1 n1] r1], m2 as [[e2 n2] r2]. intros (H1 & H2 & H3) F. cbn in H1, H2, H3. subst n2 r2.
  unfold mbind. destruct r1 as [x| |]; try now apply mut_intro.
  specialize (F e1 e2 H1). destruct (f1 e1) as [[a1 b1] c1], (f2 e2) as [[a2 b2] c2]. destruct F as (F1 & F2 & F3).
  cbn in F1, F2, F3. subst. now apply mut_intro.
Qed.

Lemma raw_alike e1 e2 a st : event_alike e1 e2 -> mut_alike (set_status_raw e1 a st) (set_status_raw e2 a st).
Proof.
  intros [e st1 st2 ro1 ro2 S R]. unfold set_status_raw. destruct (attendee_id a) as [i| |]; try (apply mut_intro; now constructor).
  destruct st as [s|].
  - apply mut_intro. apply (event_alike_intro e (dset st1 i s) (dset st2 i s) ro1 ro2); [now apply same_set|exact R].
  - change (e_state (with_role (with_state e st1) ro1)) with st1. change (e_state (with_role (with_state e st2) ro2)) with st2.
    destruct (same_del st1 st2 i S) as [(r1 & r2 & -> & -> & S')|[-> ->]]; [|apply mut_intro; now constructor].
    cbv zeta. change (e_role (with_state (with_role (with_state e st1) ro1) r1)) with ro1.
    change (e_role (with_state (with_role (with_state e st2) ro2) r2)) with ro2.
    destruct (same_del ro1 ro2 i R) as [(q1 & q2 & -> & -> & R')|[-> ->]]; apply mut_intro;
      [apply (event_alike_intro e r1 r2 q1 q2)|apply (event_alike_intro e r1 r2 ro1 ro2)]; assumption.
Qed.

Lemma set_status_alike e1 e2 a st : event_alike e1 e2 -> mut_alike (set_status e1 a st) (set_status e2 a st).
Proof.
  intros H. unfold set_status. destruct (match st with None => true | Some s => str_in s statuses end); [|now apply mut_intro].
  rewrite (alike_status e1 e2 a H). destruct (get_status e2 a) as [old| |]; try now apply mut_intro.
  destruct (opt_str_eqb old st); [now apply mut_intro|].
  apply mbind_alike; [now apply raw_alike|]. intros x1 x2 X. rewrite (alike_uid _ _ X). now apply mut_intro.
Qed.

Lemma set_role_alike e1 e2 a ro : event_alike e1 e2 -> mut_alike (set_role e1 a ro) (set_role e2 a ro).
Proof.
  intros [e st1 st2 ro1 ro2 S R]. unfold set_role. destruct (str_in ro roles); [|apply mut_intro; now constructor].
  destruct (attendee_id a) as [i| |]; try (apply mut_intro; now constructor).
  apply mut_intro. apply (event_alike_intro e st1 st2 (dset ro1 i ro) (dset ro2 i ro)); [exact S|now apply same_set].
Qed.

Lemma invite_alike l : forall e1 e2, event_alike e1 e2 -> mut_alike (invite e1 l) (invite e2 l).
Proof.
  induction l as [|a l IH]; intros e1 e2 H; cbn [invite]; [now apply mut_intro|].
  rewrite (alike_status e1 e2 a H). destruct (get_status e2 a) as [[s|]| |]; try now apply mut_intro.
  - now apply IH.
  - apply mbind_alike; [|exact IH]. apply mbind_alike; [now apply set_status_alike|]. intros x1 x2 X. now apply set_role_alike.
Qed.

Lemma set_attrs_alike sp e1 e2 : event_alike e1 e2 -> event_alike (set_attrs sp e1) (set_attrs sp e2).
Proof. intros [e st1 st2 ro1 ro2 S R]. apply (event_alike_intro (set_attrs sp e) st1 st2 ro1 ro2); assumption. Qed.

Lemma with_organizer_alike o e1 e2 : event_alike e1 e2 -> event_alike (with_organizer e1 o) (with_organizer e2 o).
Proof. intros [e st1 st2 ro1 ro2 S R]. apply (event_alike_intro (with_organizer e o) st1 st2 ro1 ro2); assumption. Qed.

Lemma with_time_alike t d e1 e2 : event_alike e1 e2 -> event_alike (with_time e1 t d) (with_time e2 t d).
Proof. intros [e st1 st2 ro1 ro2 S R]. apply (event_alike_intro (with_time e t d) st1 st2 ro1 ro2); assumption. Qed.

Lemma alike_time e1 e2 : event_alike e1 e2 -> e_dtstart e1 = e_dtstart e2 /\ e_duration e1 = e_duration e2.
Proof. now intros []. Qed.

Lemma adjust_alike e1 e2 : event_alike e1 e2 -> event_alike (allday_adjust e1) (allday_adjust e2).
Proof.
  intros H. unfold allday_adjust. destruct (alike_time e1 e2 H) as [-> ->].
  destruct (e_duration e2); now apply with_time_alike.
Qed.

Lemma set_attendees_alike l : forall e1 e2, event_alike e1 e2 -> mut_alike (set_attendees e1 l) (set_attendees e2 l).
Proof.
  induction l as [|[[a ro] st] l IH]; intros e1 e2 H; cbn [set_attendees]; [now apply mut_intro|].
  apply mbind_alike; [|exact IH]. apply mbind_alike; [now apply set_role_alike|]. intros x1 x2 X. now apply raw_alike.
Qed.

Lemma set_on_object_alike sp e1 e2 : event_alike e1 e2 -> mut_alike (set_on_object sp e1) (set_on_object sp e2).
Proof.
  intros H. unfold set_on_object. cbv zeta. apply (set_attrs_alike sp) in H. apply mbind_alike.
  - destruct (s_organizer sp) as [i|].
    + apply mbind_alike.
      * apply mbind_alike; [now apply raw_alike|]. intros x1 x2 X. now apply set_role_alike.
      * intros x1 x2 X. now apply mut_intro, with_organizer_alike.
    + now apply mut_intro, with_organizer_alike.
  - intros x1 x2 X. now apply set_attendees_alike.
Qed.

Lemma attendees_differ_alike l e1 e2 : event_alike e1 e2 -> attendees_differ e1 l = attendees_differ e2 l.
Proof.
  intros H. induction l as [|[[a ro] st] l IH]; [reflexivity|]. cbn [attendees_differ].
  now rewrite (alike_status _ _ a H), (alike_role _ _ a H), IH.
Qed.

Lemma attrs_differ_alike sp e1 e2 : event_alike e1 e2 -> attrs_differ sp e1 = attrs_differ sp e2.
Proof. now intros []. Qed.

Lemma alike_organizer e1 e2 : event_alike e1 e2 -> e_organizer e1 = e_organizer e2.
Proof. now intros []. Qed.

Lemma will_modify_alike sp e1 e2 : event_alike e1 e2 -> will_modify sp e1 = will_modify sp e2.
Proof.
  intros H. unfold will_modify.
  rewrite (attrs_differ_alike sp _ _ H), (alike_organizer _ _ H), (alike_status _ _ _ H), (alike_role _ _ _ H), (attendees_differ_alike _ _ _ H).
  reflexivity.
Qed.

(** a newly made event is alike to itself: its dictionaries have no key twice *)
Lemma new_event_alike u sp e : new_event u sp = Ok e -> event_alike e e.
Proof.
  unfold new_event. destruct (set_on_object_alike sp _ _ (blank_alike u)) as (H & _).
  destruct (set_on_object sp (blank u)) as [[e0 n] [x| |]]; try discriminate. cbn in H. intros E. injection E as <-.
  destruct (e_allday e0); [now apply adjust_alike|exact H].
Qed.

(** ** lists of results *)
Lemma listed_refl {A} (R : A -> A -> Prop) l : (forall x, In x l -> R x x) -> listed_alike R l l.
Proof.
  intros H. exists l. split; [reflexivity|]. induction l as [|a l IH]; constructor; [apply H; now left|].
  apply IH. intros x X. apply H. now right.
Qed.

Lemma ends_ok_left {A B} (R : A -> B -> Prop) r1 r2 a : ends_alike R r1 r2 -> r1 = Ok a -> exists b, r2 = Ok b /\ R a b.
Proof. intros H ->. destruct r2 as [b| |]; cbn in H; try contradiction. eauto. Qed.

Lemma ends_intro {A B} (R : A -> B -> Prop) r1 r2 :
  (forall a, r1 = Ok a -> exists b, r2 = Ok b /\ R a b) ->
  (forall b, r2 = Ok b -> exists a, r1 = Ok a) -> ends_alike R r1 r2.
Proof.
  intros H1 H2. destruct r1 as [a| |].
  - destruct (H1 a eq_refl) as (b & -> & X). exact X.
  - destruct r2 as [b| |]; try exact I. destruct (H2 b eq_refl) as (a & X). discriminate.
  - destruct r2 as [b| |]; try exact I. destruct (H2 b eq_refl) as (a & X). discriminate.
Qed.

Lemma ends_bind {A B C D} (R : A -> B -> Prop) (S : C -> D -> Prop) r1 r2 f1 f2 : ends_alike R r1 r2 ->
  (forall a b, R a b -> ends_alike S (f1 a) (f2 b)) -> ends_alike S (rbind r1 f1) (rbind r2 f2).
Proof. intros H F. destruct r1, r2; cbn in *; try contradiction; try exact I. now apply F. Qed.

Lemma forall2_app_perm {A B} (R : A -> B -> Prop) l1 l1' l2 l2' :
  listed_alike R l1 l1' -> listed_alike R l2 l2' -> listed_alike R (l1 ++ l2) (l1' ++ l2').
Proof.
  intros (m1 & P1 & F1) (m2 & P2 & F2). exists (m1 ++ m2). split; [now apply Permutation_app|now apply Forall2_app].
Qed.

Lemma concat_forall2 {A B C D} (R : A -> B -> Prop) (S : C -> D -> Prop) f g l1 l2 :
  (forall a b, R a b -> ends_alike (listed_alike S) (f a) (g b)) -> Forall2 R l1 l2 ->
  ends_alike (listed_alike S) (rconcat_map f l1) (rconcat_map g l2).
Proof.
  intros H. induction 1 as [|a b l1 l2 X F IH]; cbn [rconcat_map].
  - exists []. split; constructor.
  - eapply ends_bind; [apply H; exact X|]. intros x y XY. eapply ends_bind; [exact IH|]. intros u w UW.
    now apply forall2_app_perm.
Qed.

Lemma concat_alike {A B C D} (R : A -> B -> Prop) (S : C -> D -> Prop) f g l1 l2 :
  (forall a b, R a b -> ends_alike (listed_alike S) (f a) (g b)) -> listed_alike R l1 l2 ->
  ends_alike (listed_alike S) (rconcat_map f l1) (rconcat_map g l2).
Proof.
  intros H (l & P & F). pose proof (concat_forall2 R S f g l l2 H F) as E. apply ends_intro.
  - intros o1 O1. destruct (rconcat_perm f l1 l o1 P O1) as (o & O2 & Q).
    destruct (ends_ok_left _ _ _ _ E O2) as (o2 & O3 & m & M1 & M2). exists o2. split; [exact O3|].
    exists m. split; [now transitivity o|exact M2].
  - intros o2 O2. rewrite O2 in E. destruct (rconcat_map f l) as [o| |] eqn:O; cbn in E; try contradiction.
    destruct (rconcat_perm f l l1 o (Permutation_sym P) O) as (o1 & O1 & _). eauto.
Qed.

Lemma rfilter_concat {A} (f : A -> res bool) l :
  rfilter f l = rconcat_map (fun x => let* b := f x in Ok (if b : bool then [x] else [])) l.
Proof.
  induction l as [|a l IH]; [reflexivity|]. cbn [rfilter rconcat_map]. rewrite IH.
  destruct (f a) as [b| |]; cbn [rbind]; try reflexivity. destruct (rconcat_map _ l); cbn [rbind]; try reflexivity. now destruct b.
Qed.

Lemma filter_alike {A} (R : A -> A -> Prop) f l1 l2 : (forall a b, R a b -> f a = f b) -> listed_alike R l1 l2 ->
  ends_alike (listed_alike R) (rfilter f l1) (rfilter f l2).
Proof.
  intros H L. rewrite !rfilter_concat. eapply concat_alike; [|exact L]. intros a b X. cbv beta. rewrite (H a b X).
  destruct (f b) as [c| |]; cbn [rbind ends_alike]; try exact I. destruct c.
  - exists [a]. split; [reflexivity|]. now constructor.
  - exists []. split; constructor.
Qed.

Lemma map_alike {A B} (R : A -> A -> Prop) (g : A -> res B) l1 l2 : (forall a b, R a b -> g a = g b) -> listed_alike R l1 l2 ->
  ends_alike (@Permutation B) (rmap g l1) (rmap g l2).
Proof.
  intros H L.
  assert (M : forall l, rmap g l = rconcat_map (fun x => let* y := g x in Ok [y]) l).
  { induction l as [|a l IH]; [reflexivity|]. cbn [rmap rconcat_map]. rewrite IH.
    destruct (g a) as [b| |]; cbn [rbind]; try reflexivity; destruct (rconcat_map _ l); reflexivity. }
  rewrite !M.
  assert (E : ends_alike (listed_alike eq) (rconcat_map (fun x => let* y := g x in Ok [y]) l1)
                (rconcat_map (fun x => let* y := g x in Ok [y]) l2)).
  { eapply concat_alike; [|exact L]. intros a b X. cbv beta. rewrite (H a b X). destruct (g b) as [c| |]; cbn; try exact I.
    apply listed_refl. reflexivity. }
  destruct (rconcat_map _ l1) as [o1| |], (rconcat_map _ l2) as [o2| |]; cbn in *; try contradiction; try exact I.
  destruct E as (o & P & F). replace o2 with o; [exact P|]. clear -F. induction F; congruence.
Qed.

(** ** queries *)
Lemma match_attendees_alike c e1 e2 l : event_alike e1 e2 -> match_attendees c e1 l = match_attendees c e2 l.
Proof.
  intros H. induction l as [|a l IH]; [reflexivity|]. cbn [match_attendees]. unfold has_attendee.
  now rewrite (alike_status _ _ a H), (alike_role _ _ a H), IH.
Qed.

Lemma match_alike c e1 e2 : event_alike e1 e2 -> match_criteria c e1 = match_criteria c e2.
Proof.
  intros H. unfold match_criteria.
  assert (C : existsb (in_category e1) = existsb (in_category e2)) by (now destruct H).
  assert (O : get_organizer_id e1 = get_organizer_id e2) by (now destruct H).
  rewrite C, O. destruct (c_attendees c) as [l|]; [|reflexivity]. now rewrite (match_attendees_alike c e1 e2 l H).
Qed.

Lemma matching_alike evs1 evs2 c : listed_alike event_alike evs1 evs2 ->
  ends_alike (listed_alike event_alike) (matching_events evs1 c) (matching_events evs2 c).
Proof. intros H. unfold matching_events. apply filter_alike; [|exact H]. intros a b X. now apply match_alike. Qed.

Lemma get_events_alike evs1 evs2 p c : listed_alike event_alike evs1 evs2 ->
  ends_alike (listed_alike event_alike) (get_events evs1 p c) (get_events evs2 p c).
Proof.
  intros H. unfold get_events. eapply ends_bind; [apply matching_alike; exact H|]. intros l1 l2 L. apply filter_alike; [|exact L].
  intros a b X. destruct (alike_time a b X) as [-> ->]. reflexivity.
Qed.

(** an occurrence: same start, same length, the same event *)
Definition occ_alike (o1 o2 : occurrence event) : Prop :=
  o_dtstart o1 = o_dtstart o2 /\ o_duration o1 = o_duration o2 /\ event_alike (o_original o1) (o_original o2).

Lemma concat_same_list {A C} (S : C -> C -> Prop) (f g : A -> res (list C)) l :
  (forall a, ends_alike (listed_alike S) (f a) (g a)) ->
  ends_alike (listed_alike S) (rconcat_map f l) (rconcat_map g l).
Proof.
  intros H. apply (concat_forall2 eq); [intros a b <-; apply H|]. induction l; constructor; auto.
Qed.

Lemma expand_alike F e1 e2 p : event_alike e1 e2 -> ends_alike (listed_alike occ_alike) (expand F e1 p) (expand F e2 p).
Proof.
  intros H. destruct (alike_time e1 e2 H) as [T D].
  assert (R : e_recurrence e1 = e_recurrence e2) by (now destruct H).
  assert (ONE : forall b t, ends_alike (listed_alike occ_alike)
            (Ok (if b : bool then [mkOcc t (e_duration e1) e1] else [])) (Ok (if b then [mkOcc t (e_duration e2) e2] else []))).
  { intros b t. destruct b; [|exists []; split; constructor]. exists [mkOcc t (e_duration e1) e1]. split; [reflexivity|].
    constructor; [|constructor]. now repeat split. }
  unfold expand. rewrite R. destruct (e_recurrence e2) as [r|].
  - destruct (snd p) as [pe|]; [|exact I]. rewrite T. destruct (apply F r (e_dtstart e2) _) as [l f].
    eapply ends_bind with (R := listed_alike occ_alike).
    + unfold expand_dates. apply concat_same_list. intros d. cbv beta zeta. rewrite T, D.
      destruct (in_period _ _ p) as [b| |]; cbn [rbind]; try exact I. rewrite <- D at 1. apply ONE.
    + intros a b X. destruct f; [exact X|exact I|exact I].
  - rewrite T, D. destruct (in_period _ _ p) as [b| |]; cbn [rbind]; try exact I. rewrite <- D at 1. apply ONE.
Qed.

Lemma get_occurrences_alike F evs1 evs2 p c : listed_alike event_alike evs1 evs2 ->
  ends_alike (listed_alike occ_alike) (get_occurrences F evs1 p c) (get_occurrences F evs2 p c).
Proof.
  intros H. unfold get_occurrences. destruct (assert_bounded p) as [b| |]; cbn [rbind]; try exact I.
  eapply ends_bind; [apply matching_alike; exact H|]. intros l1 l2 L. eapply concat_alike; [|exact L].
  intros e1 e2 E. now apply expand_alike.
Qed.

Lemma emit_alike e1 e2 p l : event_alike e1 e2 -> forall e,
  ends_alike (listed_alike occ_alike) (emit_segments e1 p e l) (emit_segments e2 p e l).
Proof.
  intros H. induction l as [|s l IH]; intros e; cbn [emit_segments]; [exists []; split; constructor|].
  cbv zeta. destruct (in_period s (Some (e - s)) p) as [b| |]; cbn [rbind]; try exact I.
  eapply ends_bind; [apply IH|]. intros x y (m & P & Q). destruct b; [|exists m; auto].
  exists (mkOcc s (Some (e - s)) e1 :: m). split; [now constructor|]. constructor; [now repeat split|exact Q].
Qed.

Lemma segment_alike x y o1 o2 : occ_alike o1 o2 ->
  ends_alike (listed_alike occ_alike) (segment_one x y o1) (segment_one x y o2).
Proof.
  intros (T & D & E). unfold segment_one. rewrite T, D. cbv zeta.
  destruct (end_of (o_dtstart o2) (o_duration o2)) as [z| |]; cbn [rbind]; try exact I.
  destruct (day_borders _ _ z y) as [bs| |]; cbn [rbind]; try exact I. now apply emit_alike.
Qed.

Lemma segmented_alike F evs1 evs2 p c : listed_alike event_alike evs1 evs2 ->
  ends_alike (listed_alike occ_alike) (get_occurrences_segmented F evs1 p c) (get_occurrences_segmented F evs2 p c).
Proof.
  intros H. unfold get_occurrences_segmented. eapply ends_bind; [apply get_occurrences_alike; exact H|]. intros l1 l2 L.
  destruct (assert_bounded p) as [[x y]| |]; cbn [rbind]; try exact I. unfold segment_occurrences.
  eapply concat_alike; [|exact L]. intros a b X. now apply segment_alike.
Qed.

Lemma blocked_of_alike a b e tb te o1 o2 : occ_alike o1 o2 -> blocked_of a b e tb te o1 = blocked_of a b e tb te o2.
Proof.
  intros (T & D & E). unfold blocked_of, blocks. rewrite T, D, (alike_status _ _ a E).
  assert (X : e_transparent (o_original o1) = e_transparent (o_original o2)) by (now destruct E).
  assert (Y : e_status (o_original o1) = e_status (o_original o2)) by (now destruct E).
  now rewrite X, Y.
Qed.

Lemma listed_eq {A} (l1 l2 : list A) : listed_alike eq l1 l2 <-> Permutation l1 l2.
Proof.
  split.
  - intros (l & P & F). replace l2 with l; [exact P|]. clear -F. induction F; congruence.
  - intros P. exists l2. split; [exact P|]. clear. induction l2; constructor; auto.
Qed.

(** blocked periods are the same list *)
Lemma blocked_alike F evs1 evs2 a1 a2 begins ends tb te : listed_alike event_alike evs1 evs2 -> Permutation a1 a2 ->
  ends_alike eq (get_blocked F evs1 a1 begins ends tb te) (get_blocked F evs2 a2 begins ends tb te).
Proof.
  intros H P. unfold get_blocked. eapply ends_bind with (R := @Permutation (Z * Z)).
  - assert (E : ends_alike (listed_alike eq)
       (rconcat_map (fun a => let* occs := get_occurrences_segmented F evs1 (Some begins, Some ends)
                     (Some (mk_criteria (AMany [a]) None None None None)) in rconcat_map (blocked_of a begins ends tb te) occs) a1)
       (rconcat_map (fun a => let* occs := get_occurrences_segmented F evs2 (Some begins, Some ends)
                     (Some (mk_criteria (AMany [a]) None None None None)) in rconcat_map (blocked_of a begins ends tb te) occs) a2)).
    { eapply concat_alike with (R := eq); [|now apply listed_eq]. intros a b <-. eapply ends_bind; [apply segmented_alike; exact H|].
      intros l1 l2 L. eapply concat_alike; [|exact L]. intros o1 o2 X. rewrite (blocked_of_alike a begins ends tb te o1 o2 X).
      destruct (blocked_of a begins ends tb te o2); cbn; try exact I. now apply listed_refl. }
    destruct (rconcat_map _ a1) as [b1| |], (rconcat_map _ a2) as [b2| |]; cbn in *; try contradiction; try exact I.
    now apply listed_eq.
  - intros b1 b2 Q. destruct (if dt_time ends =? 0 then _ else _) as [k| |]; cbn [rbind]; try exact I.
    destruct (night_blocks _ tb te (dt_date begins) k) as [nb| |]; cbn [rbind]; try exact I. cbn [ends_alike].
    apply remove_overlaps_perm, Permutation_app_tail, NoDup_Permutation; try apply dedup_nodup.
    intros x. rewrite !dedup_in. split; apply Permutation_in; [exact Q|now symmetry].
Qed.

Lemma free_alike F evs1 evs2 a1 a2 begins ends tb te m : listed_alike event_alike evs1 evs2 -> Permutation a1 a2 ->
  ends_alike eq (get_free F evs1 a1 begins ends tb te m) (get_free F evs2 a2 begins ends tb te m).
Proof.
  intros H P. unfold get_free. eapply ends_bind; [apply blocked_alike; [exact H|exact P]|]. intros a b <-. reflexivity.
Qed.
