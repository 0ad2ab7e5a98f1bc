(** The storage as a function of the notifications sent. *)
From Verif Require Import Base PyDate DateFacts Recurrent CalTime TimeProofs Event Storage ICal System
  QueryProofs EventProofs SpecProofs SystemProofs.

(** A ledger: how many events have been created, and which of them each id
    stands for.  Specification only. *)
Definition ledger := (nat * (string -> option nat))%type.
Definition book1 (l : ledger) (x : notification) : ledger :=
  match x with
  | NCreated u => (S (fst l), fun v => if String.eqb v u then Some (fst l) else snd l v)
  | NDeleted u => (fst l, fun v => if String.eqb v u then None else snd l v)
  | _ => l
  end.
Definition book (l : ledger) (n : list notification) : ledger := fold_left book1 n l.

Lemma book_app l n1 n2 : book l (n1 ++ n2) = book (book l n1) n2.
Proof. apply fold_left_app. Qed.

Lemma book_ext n : forall k f g, (forall v, f v = g v) ->
  fst (book (k, f) n) = fst (book (k, g) n) /\ forall v, snd (book (k, f) n) v = snd (book (k, g) n) v.
Proof.
  induction n as [|x n IH]; intros k f g H; [now split|]. cbn [book fold_left].
  destruct x as [u|u|u|u w o nw]; cbn [book1 fst snd]; apply IH; try exact H; intros v; now rewrite ?H.
Qed.

Lemma quiet_book n : forall l, quiet n -> book l n = l.
Proof.
  intros l H. revert l. induction H as [|x n Hx H IH]; intros l; [reflexivity|]. cbn [book fold_left].
  fold (book (book1 l x) n). rewrite IH. destruct x; cbn in *; tauto.
Qed.

Definition booked (s : system) (n : list notification) (s' : system) : Prop :=
  store_inv s -> store_inv s'
  /\ List.length (sys_heap s') = fst (book (List.length (sys_heap s), dget (sys_store s)) n)
  /\ forall u, dget (sys_store s') u = snd (book (List.length (sys_heap s), dget (sys_store s)) n) u.

Lemma booked_refl : T_refl booked.
Proof. intros s I. split; [exact I|]. split; reflexivity. Qed.

Lemma booked_trans : T_trans booked.
Proof.
  intros a n1 b n2 c H1 H2 I. destruct (H1 I) as (I1 & L1 & D1). destruct (H2 I1) as (I2 & L2 & D2).
  split; [exact I2|]. rewrite book_app. destruct (book (List.length (sys_heap a), dget (sys_store a)) n1) as [k f] eqn:B. cbn in L1, D1.
  rewrite <- L1.
  destruct (book_ext n2 (List.length (sys_heap b)) (dget (sys_store b)) f D1) as [E1 E2].
  split; [now rewrite <- E1|]. intros u. now rewrite <- E2.
Qed.

Lemma tracks_booked s n s' : tracks s n s' ->
  List.length (sys_heap s') = fst (book (List.length (sys_heap s), dget (sys_store s)) n) ->
  (store_inv s -> forall u, dget (sys_store s') u = snd (book (List.length (sys_heap s), dget (sys_store s)) n) u) ->
  booked s n s'.
Proof. intros T L D I. destruct (T I) as (I1 & _). auto. Qed.

Lemma create_booked cf s uid sp now :
  booked s (snt (create_event cf s uid sp now)) (sst (create_event cf s uid sp now)).
Proof.
  apply tracks_booked; [apply create_tracks| |];
    destruct (create_spec cf s uid sp now) as [(r & e & -> & -> & _)|(-> & -> & _)]; try reflexivity.
  - unfold sst, snt. cbn. rewrite app_length. cbn. lia.
  - intros _ u. unfold sst, snt. cbn. now rewrite dget_dset.
Qed.

Lemma delete_booked s r : booked s (snt (delete_event s r)) (sst (delete_event s r)).
Proof.
  apply tracks_booked; [apply delete_tracks| |]; unfold delete_event, ddel, sst, snt;
    destruct (dget (sys_store s) (e_uid (obj s r))); try reflexivity.
  intros [N _] u. cbn. now rewrite dget_drem.
Qed.

Lemma quiet_booked s n s' : tracks s n s' -> quiet n -> List.length (sys_heap s') = List.length (sys_heap s) ->
  sys_store s' = sys_store s -> booked s n s'.
Proof.
  intros T Q L D. apply tracks_booked; [exact T| |]; rewrite quiet_book by exact Q; cbn; [exact L|]. intros _ u. now rewrite D.
Qed.

Lemma on_event_booked s r f : keeps_uid f -> quiet (mnotes (f (obj s r))) ->
  booked s (snt (on_event s r f)) (sst (on_event s r f)).
Proof.
  intros U Q. apply quiet_booked.
  - now apply on_event_tracks.
  - unfold on_event, mnotes in *. now destruct (f (obj s r)) as [[e n] x].
  - unfold on_event. destruct (f (obj s r)) as [[e n] x]. unfold sst. cbn. apply replace_nth_length.
  - unfold on_event. now destruct (f (obj s r)) as [[e n] x].
Qed.

Lemma source_booked s s' : sys_heap s' = sys_heap s -> sys_store s' = sys_store s -> booked s [] s'.
Proof. intros H1 H2. apply quiet_booked; [now apply source_tracks|constructor|now rewrite H1|exact H2]. Qed.

Lemma delete_loop_booked l : forall s, booked s (snt (delete_loop s l)) (sst (delete_loop s l)).
Proof.
  induction l as [|u l IH]; intros s; [apply booked_refl|]. cbn [delete_loop]. rewrite sbind_slift.
  destruct (get_event s u); try apply booked_refl. apply sbind_T; [exact booked_trans|apply delete_booked|].
  intros [] _. apply IH.
Qed.

Lemma import_existing_booked cf s c uid v :
  booked s (snt (import_existing cf s c uid v)) (sst (import_existing cf s c uid v)).
Proof.
  unfold import_existing. rewrite sbind_slift. destruct (get_event s uid) as [r| |]; try apply booked_refl.
  rewrite sbind_slift. destruct (import_spec _ _ _ v) as [sp| |]; try apply booked_refl.
  rewrite sbind_slift. destruct (will_modify sp (obj s r)) as [[|]| |]; try apply booked_refl.
  apply sbind_T; [exact booked_trans| |].
  - apply on_event_booked; [intros e; apply set_on_object_uid|]. rewrite set_on_object_notes. constructor.
  - intros [] _ I. split; [exact I|]. split; reflexivity.
Qed.

Lemma import_one_booked cf s c known v : booked s (snt (import_one cf s c known v)) (sst (import_one cf s c known v)).
Proof.
  unfold import_one. destruct (v_uid v) as [uid|]; [|apply booked_refl]. destruct (str_in uid known).
  - apply sbind_T; [exact booked_trans|apply import_existing_booked|]. intros [] _. apply booked_refl.
  - destruct (has_event s uid); [apply booked_refl|].
    apply sbind_T; [exact booked_trans| |intros [] _; apply booked_refl].
    unfold import_new. rewrite sbind_slift. destruct (import_spec _ _ _ v) as [sp| |]; try apply booked_refl.
    apply sbind_T; [exact booked_trans|apply create_booked|]. intros r _. apply booked_refl.
Qed.

Lemma import_loop_booked cf c known l : forall s,
  booked s (snt (import_loop cf s c known l)) (sst (import_loop cf s c known l)).
Proof.
  induction l as [|v l IH]; intros s; [apply booked_refl|]. cbn [import_loop].
  apply sbind_T; [exact booked_trans|apply import_one_booked|]. intros uid _.
  apply sbind_T; [exact booked_trans|apply IH|]. intros uids _. apply booked_refl.
Qed.

Lemma step_booked cf s o : booked s (snt (step cf s o)) (sst (step cf s o)).
Proof.
  destruct o; cbn [step]; rewrite ?drop_sst, ?drop_snt.
  - apply create_booked.
  - apply create_booked.
  - apply delete_booked.
  - apply on_event_booked; [intros e; apply invite_attrs|]. eapply replays_quiet, invite_replays.
  - apply on_event_booked; [intros e; apply set_status_attrs|]. apply set_status_quiet.
  - apply on_event_booked; [intros e; apply set_role_attrs|]. rewrite set_role_notes. constructor.
  - apply on_event_booked; [intros e; apply allday_uid|]. constructor.
  - apply on_event_booked; [intros e; reflexivity|]. constructor.
  - apply on_event_booked; [intros e; apply set_on_object_uid|]. rewrite set_on_object_notes. constructor.
  - now apply source_booked.
  - now apply source_booked.
  - unfold add_attendee. destruct a; now apply source_booked.
  - unfold remove_attendee. destruct (let* i := attendee_id a in _); now apply source_booked.
  - unfold import_cal. rewrite sbind_slift. destruct (cal_events s c p cr) as [evs| |]; try apply booked_refl.
    rewrite sbind_slift. destruct parsed as [[vs|]| |]; try apply booked_refl.
    apply sbind_T; [exact booked_trans|apply import_loop_booked|]. intros uids _.
    destruct sync; [apply delete_loop_booked|apply booked_refl].
Qed.

Lemma history_booked cf s h : history cf s h ->
  List.length (sys_heap s) = fst (book (O, fun _ => None) (all_notes h))
  /\ forall u, dget (sys_store s) u = snd (book (O, fun _ => None) (all_notes h)) u.
Proof.
  intros H. pose proof (history_tracks cf s h H) as [_ _].
  induction H as [|s h o s' n r H [IH1 IH2] E]; [split; reflexivity|].
  destruct (history_tracks cf s h H) as [I _].
  pose proof (step_booked cf s o) as B. rewrite E in B. destruct (B I) as (_ & B1 & B2). unfold sst, snt in B1, B2. cbn [fst snd] in B1, B2.
  unfold all_notes. rewrite flat_map_app. cbn [flat_map snd fst]. rewrite app_nil_r, book_app. fold (all_notes h).
  destruct (book (O, fun _ => None) (all_notes h)) as [k f]. cbn in IH1, IH2. rewrite <- IH1.
  destruct (book_ext n (List.length (sys_heap s)) (dget (sys_store s)) f IH2) as [E1 E2].
  split; [congruence|]. intros u. rewrite B2. apply E2.
Qed.
