(** Exact versions of properties that hold only in part: when they hold and what
    happens when they do not (C22, C25, C38, C39, C43, C49, C59, C60). *)
From Verif Require Import Base PyDate DateFacts Recurrent SpecRecur RecurProofs CalTime TimeProofs Event Storage ICal System
  QueryProofs BlockProofs EventProofs SpecProofs SystemProofs StoreProofs IdProofs PropTime PropQuery PropEvent PropSystem.
From Coq Require Import ZifyBool.
Ltac Zify.zify_post_hook ::= Z.div_mod_to_equations.
Local Opaque ord2ymd year_of month_of day_of ymd2ord days_in_month is_leap.

(** * C25: segments *)
(** the part of the interval from [x] to [z] that lies in day [D] *)
Definition clip (D x z : Z) : Z * Z := (Z.max x (D * DAY), Z.min z ((D + 1) * DAY)).

Lemma pieces_exact n : forall b last, b <= last -> n = Z.to_nat (dt_date last - dt_date b) ->
  forall p, In p (pieces b (midnights (dt_date b + 1) (dt_date last)) last)
    <-> exists D, dt_date b <= D <= dt_date last /\ p = clip D b last.
Proof.
  induction n as [|n IH]; intros b last L N p.
  - assert (E : dt_date last = dt_date b) by (unfold dt_date, DAY in *; lia).
    unfold midnights. rewrite days_nil by lia. cbn [map pieces In]. split.
    + intros [<-|[]]. exists (dt_date b). split; [lia|]. unfold clip, dt_date, DAY in *. f_equal; lia.
    + intros (D & H & ->). left. assert (D = dt_date b) by lia. subst D. unfold clip, dt_date, DAY in *. f_equal; lia.
  - assert (Hlt : dt_date b < dt_date last) by lia. set (m := (dt_date b + 1) * DAY).
    assert (Em : dt_date m = dt_date b + 1) by (subst m; unfold dt_date; apply div_day).
    assert (EL : midnights (dt_date b + 1) (dt_date last) = m :: midnights (dt_date m + 1) (dt_date last)).
    { unfold midnights. rewrite (days_cons (dt_date b + 1)) by lia. cbn [map]. now rewrite Em. }
    assert (Lm : m <= last) by (subst m; unfold dt_date, DAY in *; lia).
    assert (Bm : b < m) by (subst m; unfold dt_date, DAY in *; lia).
    rewrite EL. cbn [pieces In]. rewrite (IH m last Lm ltac:(lia)). split.
    + intros [<-|(D & H & ->)].
      * exists (dt_date b). split; [lia|]. unfold clip. fold m. f_equal; [unfold dt_date, DAY in *; lia|lia].
      * exists D. split; [lia|]. unfold clip. f_equal. subst m. unfold dt_date, DAY in *. lia.
    + intros (D & H & ->). destruct (Z.eq_dec D (dt_date b)) as [->|NE].
      * left. unfold clip. fold m. f_equal; [unfold dt_date, DAY in *; lia|lia].
      * right. exists D. split; [lia|]. unfold clip. f_equal. subst m. unfold dt_date, DAY in *. lia.
Qed.

(** An occurrence is cut into its parts in the days of the period; there is one
    empty piece besides, at its end, if that is a midnight inside the period. *)
Theorem C25_pieces_exact : forall (A : Type) b e (occ : occurrence A) d out, dt_ok e = true ->
  o_duration occ = Some d -> 0 <= d -> segment_occurrences (b, e) [occ] = Ok out ->
  forall o, In o out <-> o_original o = o_original occ /\ exists x z, o_dtstart o = x /\ o_duration o = Some (z - x)
    /\ ((exists D, x = Z.max (Z.max (o_dtstart occ) b) (D * DAY) /\ z = Z.min (Z.min (o_dtstart occ + d) e) ((D + 1) * DAY) /\ x < z)
        \/ (x = o_dtstart occ + d /\ z = x /\ b < x < e /\ (d = 0 \/ x mod DAY = 0))).
Proof.
  intros A b e occ d out OE D0 Dp E o.
  apply segments_cons in E as (s1 & s2 & E1 & E2 & ->). unfold segment_occurrences in E2. cbn [rconcat_map] in E2.
  assert (s2 = []) by congruence. subst s2. rewrite app_nil_r. apply segment_one_eq in E1; [|exact OE].
  destruct E1 as (d' & D1 & _ & ->). assert (d' = d) by congruence. subst d'. set (s := o_dtstart occ) in *.
  assert (INO : In o (map (piece_occ (o_original occ)) (filter (piece_in b e) (rev (seg_pieces b e s (s + d))))) <->
     exists p, In p (seg_pieces b e s (s + d)) /\ piece_in b e p = true /\ o = piece_occ (o_original occ) p).
  { rewrite in_map_iff. split.
    - intros (p & <- & H). apply filter_In in H as [H1 H2]. apply in_rev in H1. eauto.
    - intros (p & H1 & H2 & ->). exists p. split; [reflexivity|]. apply filter_In. split; [|exact H2]. now apply in_rev in H1. }
  rewrite INO. clear INO. unfold piece_in. destruct (Z_lt_le_dec (Z.min (s + d) e) (Z.max s b)) as [L|L].
  - rewrite seg_pieces_none by exact L. split.
    + intros (p & [<-|[]] & H & _). cbn [fst snd] in H. lia.
    + intros (_ & x & z & _ & _ & [(D & X & Z0 & Y)|(X & Z0 & Y & _)]); lia.
  - unfold seg_pieces. split.
    + intros (p & H1 & H2 & ->). apply (pieces_exact _ _ _ L eq_refl) in H1 as (D & H3 & ->). unfold piece_occ, clip in *. cbn [o_original o_dtstart o_duration fst snd] in *.
      split; [reflexivity|]. eexists. eexists. split; [reflexivity|]. split; [reflexivity|].
      destruct (Z_lt_le_dec (Z.max (Z.max s b) (D * DAY)) (Z.min (Z.min (s + d) e) ((D + 1) * DAY))) as [Y|Y]; [left; eauto|right].
      unfold dt_date, DAY in *. lia.
    + intros (O & x & z & X1 & X2 & C).
      assert (P : o = piece_occ (o_original occ) (x, z)).
      { destruct o as [a c g]. unfold piece_occ. cbn [o_dtstart o_duration o_original fst snd] in *. congruence. }
      exists (x, z). destruct C as [(D & C1 & C2 & C3)|(C1 & C2 & C3 & C4)].
      * split; [|split; [cbn [fst snd]; unfold dt_date, DAY in *; lia|exact P]]. apply (pieces_exact _ _ _ L eq_refl). exists D.
        split; [unfold dt_date, DAY in *; lia|]. unfold clip. now rewrite C1, C2.
      * split; [|split; [cbn [fst snd]; lia|exact P]]. apply (pieces_exact _ _ _ L eq_refl). exists (dt_date x).
        split; [unfold dt_date, DAY in *; lia|]. unfold clip, dt_date, DAY in *. f_equal; lia.
Qed.
Print Assumptions C25_pieces_exact.

(** when there is an empty piece *)
Theorem C25_empty_iff : forall (A : Type) b e (occs : list (occurrence A)) out, dt_ok e = true ->
  (forall o, In o occs -> exists d, o_duration o = Some d /\ 0 < d) ->
  segment_occurrences (b, e) occs = Ok out ->
  ((exists o, In o out /\ o_duration o = Some 0) <->
   exists o d, In o occs /\ o_duration o = Some d /\ b < o_dtstart o + d < e /\ (o_dtstart o + d) mod DAY = 0).
Proof.
  intros A b e occs out OE P E. split.
  - intros (o & H & Z0). apply (segments_in _ _ _ _ E) in H as (occ & segs & H1 & H2 & H3).
    destruct (P occ H1) as (d & D & Dp). apply segments_one in H2.
    apply (C25_pieces_exact _ _ _ _ _ _ OE D ltac:(lia) H2) in H3 as (_ & x & z & X1 & X2 & C). rewrite Z0 in X2.
    assert (z - x = 0) by congruence. destruct C as [(k & C1 & C2 & C3)|(C1 & C2 & C3 & C4)]; [lia|].
    exists occ, d. split; [exact H1|]. split; [exact D|]. rewrite C1 in C3, C4. split; [lia|]. destruct C4; [lia|assumption].
  - intros (occ & d & H & D & B & M). destruct (rconcat_all _ _ _ E occ H) as [segs S]. cbn [fst snd] in S. pose proof (segments_one _ _ _ _ S) as S1.
    destruct (P occ H) as (d' & D' & Dp). assert (d' = d) by congruence. subst d'.
    exists (mkOcc (o_dtstart occ + d) (Some 0) (o_original occ)). split; [|reflexivity]. apply (segments_in _ _ _ _ E).
    exists occ, segs. split; [exact H|]. split; [exact S|].
    apply (C25_pieces_exact _ _ _ _ _ _ OE D ltac:(lia) S1). split; [reflexivity|]. exists (o_dtstart occ + d), (o_dtstart occ + d).
    split; [reflexivity|]. split; [cbn; f_equal; lia|]. right. auto.
Qed.
Print Assumptions C25_empty_iff.

Example C25_exact_case : segment_occurrences (midnight 0, midnight 7) [mkOcc (noon 1) (Some (DAY + 12 * HOUR)) 7%nat]
  = Ok [mkOcc (midnight 3) (Some 0) 7%nat; mkOcc (midnight 2) (Some DAY) 7%nat; mkOcc (noon 1) (Some (12 * HOUR)) 7%nat].
Proof. vm_compute. reflexivity. Qed.

(** * C22: the events of a day *)
(** for events of any length, with any criteria *)
Theorem C22_events_in_day_exact : forall evs atts D c l, calendar_events_in_day evs atts D c = Ok l ->
  forall e, In e l <-> In e evs /\ wanted c (Some atts) None e
    /\ exists d, e_duration e = Some d /\ D * DAY < e_dtstart e + d /\ e_dtstart e < (D + 1) * DAY.
Proof.
  intros evs atts D c l E e. unfold calendar_events_in_day in E. destruct (day_period D) as [p| |] eqn:P; try discriminate. cbn [rbind] in E.
  apply day_period_inv in P as [-> _]. rewrite (C34_calendar_exact _ _ _ _ _ E e). unfold in_time. cbn [fst snd].
  split; intros (H1 & H2 & H3); (split; [exact H1|]); (split; [exact H2|]).
  - destruct H3 as [H3 H4]. destruct (H3 _ eq_refl) as (d & X & Y). specialize (H4 _ eq_refl). exists d. unfold combine in *. split; [exact X|]. lia.
  - destruct H3 as (d & X & Y & Z0). split; intros b B; injection B as <-; [exists d; split; [exact X|]|]; unfold combine; lia.
Qed.
Print Assumptions C22_events_in_day_exact.

(** an event is on some day unless it is an instant at midnight *)
Theorem C22_visible_iff : forall evs atts e d,
  (forall e, In e evs -> event_ok e) -> ~ In None atts ->
  In e evs -> involves e atts -> e_duration e = Some d -> dt_date (e_dtstart e) < MAXORD ->
  ((exists D l, calendar_events_in_day evs atts D None = Ok l /\ In e l) <-> 0 < d \/ e_dtstart e mod DAY <> 0).
Proof.
  intros evs atts e d OK NN He Hi Hd LT. pose proof (OK e He) as (O1 & d' & D' & Dp & _). assert (d' = d) by congruence. subst d'. split.
  - intros (D & l & E & H). apply (C22_events_in_day_exact _ _ _ _ _ E) in H as (_ & _ & d' & X & Y & Z0). assert (d' = d) by congruence. subst d'.
    unfold DAY in *. lia.
  - intros C. destruct (events_in_day_total evs atts (dt_date (e_dtstart e)) OK NN) as [l L].
    { apply dt_ok_date in O1. lia. }
    exists (dt_date (e_dtstart e)), l. split; [exact L|]. apply (C22_events_in_day_exact _ _ _ _ _ L). split; [exact He|].
    split; [apply (satisfies_restrict None), narrowed_none, Hi|]. exists d. split; [exact Hd|]. unfold dt_date, DAY in *. lia.
Qed.
Print Assumptions C22_visible_iff.

(** the pieces a day shows: what lies in the day, and instants strictly inside *)
Theorem C22_occurrences_in_day_exact : forall F evs atts D c l, evs_ok evs ->
  calendar_occurrences_in_day F evs atts D c = Ok l ->
  forall o, In o l <-> exists e t d, In e evs /\ wanted c (Some atts) None e /\ e_duration e = Some d /\ occurs e t
    /\ o_original o = e /\ o_dtstart o = Z.max t (D * DAY)
    /\ o_duration o = Some (Z.min (t + d) ((D + 1) * DAY) - Z.max t (D * DAY))
    /\ (Z.max t (D * DAY) < Z.min (t + d) ((D + 1) * DAY) \/ (d = 0 /\ D * DAY < t < (D + 1) * DAY)).
Proof.
  intros F evs atts D c l OK E o. unfold calendar_occurrences_in_day in E.
  destruct (day_period D) as [p| |] eqn:P; try discriminate. cbn [rbind] in E. apply day_period_inv in P as [-> RD].
  unfold calendar_segmented, get_occurrences_segmented in E.
  destruct (get_occurrences F evs (Some (combine D 0), Some (combine (D + 1) 0)) (Some (restrict_attendees c atts))) as [occs| |] eqn:G; try discriminate.
  cbn [rbind assert_bounded] in E.
  assert (OE : dt_ok (combine (D + 1) 0) = true) by (unfold dt_ok, combine, DAY, MAXORD in *; lia).
  pose proof (C34_occurrences_exact F evs atts _ _ c occs OK G) as X.
  assert (B0 : combine D 0 = D * DAY) by (unfold combine; lia). assert (B1 : combine (D + 1) 0 = (D + 1) * DAY) by (unfold combine; lia).
  rewrite (segments_in _ _ _ _ E). split.
  - intros (occ & segs & H1 & H2 & H3). apply X in H1 as (e & t & d & K1 & K2 & K3 & -> & K5 & K6 & K7).
    pose proof (OK e K1) as ((_ & d' & D' & Dp & _) & _). assert (d' = d) by congruence. subst d'.
    apply segments_one in H2. apply (C25_pieces_exact _ _ _ (mkOcc t (Some d) e) d _ OE eq_refl Dp H2) in H3 as (O & x & z & X1 & X2 & C).
    cbn [o_original o_dtstart] in *. rewrite B0 in *. rewrite B1 in *. exists e, t, d. do 4 (split; [assumption|]). split; [exact O|].
    destruct C as [(k & C1 & C2 & C3)|(C1 & C2 & C3 & C4)].
    + assert (k = D) by (unfold DAY in *; lia). subst k. split; [lia|]. split; [rewrite X2; f_equal; lia|]. left. lia.
    + assert (d = 0) by (destruct C4; [assumption|unfold DAY in *; lia]). subst d. split; [lia|]. split; [rewrite X2; f_equal; lia|]. right. lia.
  - intros (e & t & d & K1 & K2 & K3 & K4 & K5 & K6 & K7 & K8).
    pose proof (OK e K1) as ((_ & d' & D' & Dp & _) & _). assert (d' = d) by congruence. subst d'.
    assert (IN : In (mkOcc t (Some d) e) occs). { apply X. exists e, t, d. rewrite B0, B1. do 3 (split; [assumption|]). split; [reflexivity|]. split; [exact K4|]. lia. }
    destruct (rconcat_all _ _ _ E _ IN) as [segs S]. cbn [fst snd] in S. exists (mkOcc t (Some d) e), segs. split; [exact IN|]. split; [exact S|].
    apply segments_one in S. apply (C25_pieces_exact _ _ _ (mkOcc t (Some d) e) d _ OE eq_refl Dp S). cbn [o_original o_dtstart]. rewrite B0, B1. split; [exact K5|].
    eexists. eexists. split; [exact K6|]. split; [exact K7|]. destruct K8 as [K8|[-> K8]].
    + left. exists D. unfold DAY in *. lia.
    + right. lia.
Qed.
Print Assumptions C22_occurrences_in_day_exact.

Example C22_exact_case :
  calendar_events_in_day [q_event "z" (at_ 0 7) 0 None "CONFIRMED" false [("alice", "ACCEPTED")]%string] [alice] 738886
    (Some (mk_criteria ANone (Some "ACCEPTED"%string) None None None))
  = Ok [q_event "z" (at_ 0 7) 0 None "CONFIRMED" false [("alice", "ACCEPTED")]%string].
Proof. vm_compute. reflexivity. Qed.

(** * C38: removing a participant *)
(** Removing works exactly for those who have a role; for others the status
    goes, an exception is raised and nobody is told. *)
Theorem C38_remove_exact cf s r i st : reachable cf s -> get_status (obj s r) (Some i) = Ok (Some st) ->
  let '(e', n, x) := set_status (obj s r) (Some i) None in
  get_status e' (Some i) = Ok None /\ get_role e' (Some i) = Ok None
  /\ ((x = Ok tt /\ n = [NParticipation (e_uid (obj s r)) i (Some st) None] /\ exists ro, get_role (obj s r) (Some i) = Ok (Some ro))
      \/ (x = Raise KeyError /\ n = [] /\ get_role (obj s r) (Some i) = Ok None)).
Proof.
  intros H S. destruct (reachable_dicts_ok cf s r H) as [D1 D2]. unfold get_status, get_role in *. cbn [attendee_id rbind] in *.
  assert (S' : dget (e_state (obj s r)) i = Some st) by congruence.
  assert (NS : dget (e_state (obj s r)) i <> None) by congruence.
  destruct (dget (e_role (obj s r)) i) as [ro|] eqn:R.
  - rewrite set_status_none by (try assumption; try (split; assumption); congruence).
    cbn [e_state e_role with_state with_role]. rewrite !dget_drem, String.eqb_refl, S' by assumption.
    split; [reflexivity|]. split; [reflexivity|]. left. eauto.
  - rewrite set_status_none_norole by assumption. cbn [e_state e_role with_state with_role].
    rewrite !dget_drem, String.eqb_refl, R by assumption.
    split; [reflexivity|]. split; [reflexivity|]. right. auto.
Qed.
Print Assumptions C38_remove_exact.

Example C38_exact_case : let s := run cf0 (office ++ [OSetStatus 0 bob (Some "ACCEPTED"%string)]) in
  reachable cf0 s /\ get_status (obj s 0) bob = Ok (Some "ACCEPTED"%string) /\ get_role (obj s 0) bob = Ok None
  /\ get_status (obj s 0) ann = Ok (Some "ACCEPTED"%string) /\ get_role (obj s 0) ann = Ok (Some "REQ-PARTICIPANT"%string).
Proof. cbv zeta. split; [apply run_reachable|]. vm_compute. auto. Qed.

(** * C39: listing by role *)
(** It works exactly if everybody whose status is asked for has a role. *)
Theorem C39_listing_role_iff cf s r status ro : reachable cf s ->
  ((exists l, get_attendee_ids (obj s r) status (Some ro) = Ok l) <->
   forall i st, get_status (obj s r) (Some i) = Ok (Some st) -> (forall x, status = Some x -> st = x) ->
     exists ro', get_role (obj s r) (Some i) = Ok (Some ro'))
  /\ ((exists l, get_attendee_ids (obj s r) status (Some ro) = Ok l) \/ get_attendee_ids (obj s r) status (Some ro) = Raise KeyError).
Proof.
  intros H. destruct (reachable_dicts_ok cf s r H) as [D1 D2]. unfold get_attendee_ids, get_status, get_role. cbn [attendee_id rbind].
  set (e := obj s r) in *.
  assert (G : forall l, (forall i st, In (i, st) l -> dget (e_state e) i = Some st) ->
    let m := rfilter (fun kv : string * string =>
        if match status with Some s0 => negb (String.eqb s0 (snd kv)) | None => false end then Ok false
        else match dget (e_role e) (fst kv) with Some ro' => Ok (String.eqb ro ro') | None => Raise KeyError end) l in
    ((exists q, m = Ok q) <-> forall i st, In (i, st) l -> (forall x, status = Some x -> st = x) -> dget (e_role e) i <> None)
    /\ ((exists q, m = Ok q) \/ m = Raise KeyError)).
  { induction l as [|[k st] l IH]; intros N; cbv zeta; [cbn; split; [split; [intros _ i st []|eauto]|eauto]|].
    specialize (IH ltac:(intros i x Hi; apply N; now right)). cbv zeta in IH. cbn [rfilter fst snd].
    assert (Q : (if match status with Some s0 => negb (String.eqb s0 st) | None => false end then true else false) = false
                <-> (forall x, status = Some x -> st = x)).
    { destruct status as [s0|]; [|split; [discriminate|reflexivity]]. destruct (String.eqb_spec s0 st) as [->|NE]; cbn.
      - split; [congruence|reflexivity].
      - split; [discriminate|]. intros X. specialize (X s0 eq_refl). congruence. }
    destruct (match status with Some s0 => negb (String.eqb s0 st) | None => false end).
    - cbn [rbind]. match goal with |- context [rfilter ?f l] => destruct (rfilter f l) as [q|x|] eqn:R end; cbn [rbind].
      + split; [|eauto]. split; [|eauto]. intros _ i x [X|X] Y; [|apply (proj1 (proj1 IH) ltac:(eauto) i x X Y)].
        assert (i = k /\ x = st) as [-> ->] by (split; congruence). destruct Q as [_ Q]. discriminate (Q Y).
      + destruct IH as [IH1 [IH2|IH2]]; [destruct IH2; discriminate|]. split; [|right; congruence]. split; [intros [? X]; discriminate|].
        intros X. destruct (proj2 IH1) as [? Z0]; [|discriminate]. intros i y Hi. apply X. now right.
      + destruct IH as [_ [IH2|IH2]]; [destruct IH2; discriminate|discriminate].
    - destruct Q as [Q _]. specialize (Q eq_refl). destruct (dget (e_role e) k) as [ro'|] eqn:R0; cbn [rbind].
      + match goal with |- context [rfilter ?f l] => destruct (rfilter f l) as [q|x|] eqn:R end; cbn [rbind].
        * split; [|destruct (String.eqb ro ro'); eauto]. split; [|destruct (String.eqb ro ro'); eauto].
          intros _ i x [X|X] Y; [|apply (proj1 (proj1 IH) ltac:(eauto) i x X Y)]. assert (i = k) by congruence. subst. congruence.
        * destruct IH as [IH1 [IH2|IH2]]; [destruct IH2; discriminate|]. split; [|right; congruence]. split; [intros [? X]; discriminate|].
          intros X. destruct (proj2 IH1) as [? Z0]; [|discriminate]. intros i y Hi. apply X. now right.
        * destruct IH as [_ [IH2|IH2]]; [destruct IH2; discriminate|discriminate].
      + split; [|now right]. split; [intros [? X]; discriminate|]. intros X. exfalso. apply (X k st (or_introl eq_refl) Q). exact R0. }
  specialize (G (e_state e) ltac:(intros i st Hi; now apply in_dget)). cbv zeta in G. destruct G as [G1 G2].
  match goal with |- context [rfilter ?f (e_state e)] => destruct (rfilter f (e_state e)) as [q|x|] eqn:R end; cbn [rbind].
  - split; [|left; eauto]. split; [|eauto]. intros _ i st S Y. destruct (dget (e_role e) i) as [ro'|] eqn:RR; [eauto|]. exfalso.
    apply (proj1 G1 ltac:(eauto) i st); [apply dget_in; congruence|exact Y|exact RR].
  - destruct G2 as [[? X]|X]; [discriminate|]. split; [|right; congruence]. split; [intros [? Y]; discriminate|]. intros Y.
    destruct (proj2 G1) as [? Z0]; [|discriminate]. intros i st Hi P N. destruct (Y i st) as [ro' Z0]; [f_equal; now apply in_dget|exact P|]. congruence.
  - destruct G2 as [[? X]|X]; discriminate.
Qed.
Print Assumptions C39_listing_role_iff.

(** * C43: generated ids *)
(** Two generated ids are equal exactly if made in the same second with the same
    number of stored events; that is when an event gets replaced. *)
Theorem C43_same_id_iff cf t n u m : dt_ok t = true -> dt_ok u = true ->
  (generated_id cf t n = generated_id cf u m <-> t / SECOND = u / SECOND /\ n = m).
Proof.
  intros T U. split.
  - intros E. apply generated_inj in E as [E ->]. split; [now apply iso8601_inj|reflexivity].
  - intros [E ->]. unfold generated_id. f_equal. unfold iso8601.
    assert (X : dt_date t = dt_date u) by (unfold dt_date, DAY, SECOND in *; lia).
    assert (Y : dt_time t / SECOND = dt_time u / SECOND) by (unfold dt_time, DAY, SECOND in *; lia).
    now rewrite X, Y.
Qed.
Print Assumptions C43_same_id_iff.

Theorem C43_replaced_iff cf s sp now u k : get_event s u = Ok k -> (k < List.length (sys_heap s))%nat ->
  srs (step cf s (OCreate None sp now)) = Ok tt ->
  (get_event (sst (step cf s (OCreate None sp now))) u = Ok k <-> u <> generated_id cf now (List.length (sys_store s))).
Proof.
  intros G L E. cbn [step] in *. rewrite drop_sst. destruct (create_spec cf s None sp now) as [(r & e & E1 & E2 & _)|(_ & _ & C)].
  - rewrite E1, E2. unfold get_event, sst. cbn [fst sys_store]. rewrite dget_dset.
    destruct (String.eqb_spec u (generated_id cf now (List.length (sys_store s)))) as [->|NE].
    + split; [intros X; exfalso; assert (List.length (sys_heap s) = k) by congruence; lia|congruence].
    + split; [auto|]. intros _. exact G.
  - exfalso. unfold drop in E. destruct (create_event cf s None sp now) as [[s' n] r]. unfold srs in *. cbn in E, C. destruct r as [x| |]; [now apply (C x)|discriminate|discriminate].
Qed.
Print Assumptions C43_replaced_iff.

(** * C59: all-day events *)
(** exactly when the span given is covered *)
Theorem C59_allday_covers_iff uid s e d : new_event uid s = Ok e -> s_allday s = true -> s_duration s = Some d -> 0 <= d ->
  (covers_span s e <-> s_dtstart s mod DAY = 0 \/ d = 0 \/ (d mod DAY <> 0 /\ s_dtstart s mod DAY + d mod DAY <= DAY)).
Proof.
  intros E A D0 P. split.
  - intros C. destruct (allday_created uid s e E A) as (M & B & k & K1 & K2 & _ & K3); [intros d' X; congruence|].
    destruct (K3 d D0) as [K4 K5]. destruct (C d (k * DAY) D0 K1) as [_ C2].
    assert (k <= d / DAY + 1).
    { apply K5; [assert (0 <= d / DAY) by (apply Z.div_pos; unfold DAY; lia); lia|unfold DAY in *; lia]. }
    assert (d mod DAY = 0 -> 0 < d -> k <= d / DAY).
    { intros Z0 Dp. apply K5; [unfold DAY in *; lia|unfold DAY in *; lia]. }
    unfold DAY in *. lia.
  - intros [C|[C|C]]; [apply (C59_allday_covers_partial uid s e d E A D0 P); auto| |apply (C59_allday_covers_partial uid s e d E A D0 P); auto].
    subst d. destruct (allday_created uid s e E A) as (M & B & k & K1 & K2 & _ & K3); [intros d' X; assert (d' = 0) by congruence; lia|].
    intros d1 d2 X1 X2. assert (d1 = 0) by congruence. assert (d2 = k * DAY) by congruence. subst d1 d2. unfold DAY in *. lia.
Qed.
Print Assumptions C59_allday_covers_iff.

(** * C60: deleting *)
(** Deleting removes the newest object with the id, if that is stored: it is the
    object given exactly when no other object got the same id since. *)
Theorem C60_delete_exact cf s k : reachable cf s -> (k < List.length (sys_heap s))%nat ->
  srs (step cf s (ODelete k)) = Ok tt ->
  exists j, get_event s (e_uid (obj s k)) = Ok j
    /\ (forall u i, get_event (sst (step cf s (ODelete k))) u = Ok i <-> get_event s u = Ok i /\ i <> j)
    /\ (j = k <-> forall i, (i < List.length (sys_heap s))%nat -> e_uid (obj s i) = e_uid (obj s k) -> (i <= k)%nat).
Proof.
  intros R L E. destruct (reachable_store cf s R) as [N I]. cbn [step] in *. unfold delete_event, ddel, get_event in *.
  destruct (dget (sys_store s) (e_uid (obj s k))) as [j|] eqn:D; [|discriminate]. exists j. split; [reflexivity|].
  destruct (I _ _ D) as (I1 & I2 & I3). split.
  - intros u i. unfold sst. cbn [fst with_store sys_store]. rewrite dget_drem by exact N.
    destruct (String.eqb_spec u (e_uid (obj s k))) as [->|NE].
    + rewrite D. split; [discriminate|]. intros [X Y]. congruence.
    + destruct (dget (sys_store s) u) as [i'|] eqn:G; [|split; [discriminate|intros [X _]; discriminate]]. split.
      * intros X. split; [exact X|]. intros ->. assert (i' = j) by congruence. subst i'. destruct (I _ _ G) as (_ & J2 & _). congruence.
      * intros [X _]. exact X.
  - split.
    + intros ->. exact I3.
    + intros X. specialize (X j I1 I2). specialize (I3 k L eq_refl). lia.
Qed.
Print Assumptions C60_delete_exact.

(** and when it works: the id is announced; otherwise nothing happens *)
Theorem C60_delete_works_iff cf s k : let m := step cf s (ODelete k) in
  (srs m = Ok tt <-> has_event s (e_uid (obj s k)) = true)
  /\ (srs m = Ok tt -> snt m = [NDeleted (e_uid (obj s k))])
  /\ (srs m <> Ok tt -> m = (s, [], Raise KeyError)).
Proof.
  cbn [step]. cbv zeta. unfold delete_event. rewrite has_event_dget. unfold ddel.
  destruct (dget (sys_store s) (e_uid (obj s k))) as [r|] eqn:D; unfold srs, snt, sfail; cbn [fst snd].
  - split; [tauto|]. split; [auto|congruence].
  - split; [split; discriminate|]. split; [discriminate|reflexivity].
Qed.
Print Assumptions C60_delete_works_iff.

Example C43_exact_case : dt_ok (p_at 732500 8) = true
  /\ generated_id cf0 (p_at 732500 8) 1 = generated_id cf0 (p_at 732500 8 + 999999) 1.
Proof. vm_compute. auto. Qed.

Example C59_exact_case : exists e,
  new_event "u" (p_spec (p_at 732500 9) (Some DAY) true (Some "ann"%string) []) = Ok e
  /\ ~ (p_at 732500 9 mod DAY = 0 \/ DAY = 0 \/ (DAY mod DAY <> 0 /\ p_at 732500 9 mod DAY + DAY mod DAY <= DAY)).
Proof. eexists. split; [vm_compute; reflexivity|]. vm_compute. intuition discriminate. Qed.

Example C60_exact_case :
  let s := run cf0 (office ++ [OCreate (Some "a2"%string) (p_spec (p_at 732500 9) None false bob []) 0]) in
  reachable cf0 s /\ srs (step cf0 s (ODelete 1)) = Ok tt /\ get_event s "a2" = Ok 3%nat /\ e_uid (obj s 1) = "a2"%string.
Proof. cbv zeta. split; [apply run_reachable|]. vm_compute. auto. Qed.

(** * C49: what willModify answers *)
(** an entry of the specification that it takes for settled *)
Definition settled_entry (e : event) (x : entry) : Prop :=
  let '(a, ro, st) := x in exists i, a = Some i /\ dget (e_state e) i = st /\ dget (e_role e) i = Some "REQ-PARTICIPANT"%string.

(** the organizer is settled *)
Definition settled_organizer (s : spec) (e : event) : Prop :=
  exists o, s_organizer s = Some o /\ e_organizer e = Some o
    /\ dget (e_state e) o = Some "ACCEPTED"%string /\ dget (e_role e) o = Some "REQ-PARTICIPANT"%string.

(** "no" exactly if all attributes agree, the organizer has accepted as a
    required participant, and everybody listed has the status listed and is a
    required participant whatever role is listed *)
Theorem C49_no_iff s e : will_modify s e = Ok false <->
  attrs_agree s e /\ settled_organizer s e /\ Forall (settled_entry e) (s_attendees s).
Proof.
  rewrite will_modify_false. unfold settled_organizer.
  assert (F : Forall (settled_entry e) (s_attendees s) <-> forall a ro st, In (a, ro, st) (s_attendees s) -> exists i, a = Some i
     /\ dget (e_state e) i = st /\ dget (e_role e) i = Some "REQ-PARTICIPANT"%string).
  { rewrite Forall_forall. split.
    - intros H a ro st Hin. exact (H _ Hin).
    - intros H [[a ro] st] Hin. exact (H _ _ _ Hin). }
  now rewrite F.
Qed.
Print Assumptions C49_no_iff.

(** it raises exactly if nothing it looks at before differs and then somebody is
    missing: the organizer, or an attendee of the list *)
Theorem C49_raises_iff s e x : will_modify s e = Raise x <-> x = AttributeError /\ attrs_agree s e /\
  (s_organizer s = None
   \/ (settled_organizer s e /\ exists l1 ro st l2, s_attendees s = l1 ++ (None, ro, st) :: l2 /\ Forall (settled_entry e) l1)).
Proof.
  assert (AD : forall l, attendees_differ e l = Raise x <-> x = AttributeError
      /\ exists l1 ro st l2, l = l1 ++ (None, ro, st) :: l2 /\ Forall (settled_entry e) l1).
  { induction l as [|[[a ro] st] l IH]; cbn [attendees_differ].
    - split; [discriminate|]. intros (_ & l1 & ro & st & l2 & X & _). destruct l1; discriminate.
    - destruct a as [i|].
      + unfold get_status, get_role. cbn [attendee_id rbind].
        assert (T : (exists l1 ro0 st0 l2, (Some i, ro, st) :: l = l1 ++ (None, ro0, st0) :: l2 /\ Forall (settled_entry e) l1) <->
          settled_entry e (Some i, ro, st) /\ exists l1 ro0 st0 l2, l = l1 ++ (None, ro0, st0) :: l2 /\ Forall (settled_entry e) l1).
        { split.
          - intros (l1 & r0 & s0 & l2 & X & Y). destruct l1 as [|h l1]; [discriminate|]. inversion Y; subst. cbn in X.
            assert (h = (Some i, ro, st)) by congruence. subst h. split; [assumption|]. exists l1, r0, s0, l2. split; [congruence|assumption].
          - intros (S & l1 & r0 & s0 & l2 & -> & Y). exists ((Some i, ro, st) :: l1), r0, s0, l2. split; [reflexivity|]. now constructor. }
        rewrite T. clear T. unfold settled_entry at 1.
        destruct (negb (opt_str_eqb (dget (e_state e) i) st)) eqn:X.
        { split; [discriminate|]. intros (_ & (j & J & S & _) & _). assert (j = i) by congruence. subst j. apply opt_str_neqb in S. congruence. }
        destruct (negb (opt_str_eqb (dget (e_role e) i) (Some "REQ-PARTICIPANT"%string))) eqn:Y.
        { split; [discriminate|]. intros (_ & (j & J & _ & S) & _). assert (j = i) by congruence. subst j. apply opt_str_neqb in S. congruence. }
        apply opt_str_neqb in X. apply opt_str_neqb in Y. rewrite IH. split; [intros [H1 H2]|intros [H1 [_ H2]]]; (split; [exact H1|]); [|exact H2].
        split; [eauto|exact H2].
      + unfold get_status. cbn [attendee_id rbind]. split.
        * intros X. split; [congruence|]. exists [], ro, st, l. auto.
        * intros [-> _]. reflexivity. }
  unfold will_modify. destruct (attrs_differ s e) eqn:D.
  { split; [discriminate|]. intros (_ & H & _). apply attrs_differ_iff in H. congruence. }
  apply attrs_differ_iff in D. unfold settled_organizer. destruct (s_organizer s) as [o|] eqn:O.
  2:{ unfold get_status. cbn [attendee_id rbind]. split; [|intros [-> _]; reflexivity]. intros X. split; [congruence|]. auto. }
  destruct (negb (opt_str_eqb (e_organizer e) (Some o))) eqn:A.
  { split; [discriminate|]. intros (_ & _ & [X|((o' & X & Y & _) & _)]); [discriminate|]. assert (o' = o) by congruence. subst o'. apply opt_str_neqb in Y. congruence. }
  apply opt_str_neqb in A. unfold get_status, get_role. cbn [attendee_id rbind].
  destruct (negb (opt_str_eqb (dget (e_state e) o) (Some "ACCEPTED"%string))) eqn:B.
  { split; [discriminate|]. intros (_ & _ & [X|((o' & X & _ & Y & _) & _)]); [discriminate|]. assert (o' = o) by congruence. subst o'. apply opt_str_neqb in Y. congruence. }
  destruct (negb (opt_str_eqb (dget (e_role e) o) (Some "REQ-PARTICIPANT"%string))) eqn:C.
  { split; [discriminate|]. intros (_ & _ & [X|((o' & X & _ & _ & Y) & _)]); [discriminate|]. assert (o' = o) by congruence. subst o'. apply opt_str_neqb in Y. congruence. }
  apply opt_str_neqb in B. apply opt_str_neqb in C. rewrite AD. split.
  - intros [H1 H2]. split; [exact H1|]. split; [exact D|]. right. split; [exists o; auto|exact H2].
  - intros (H1 & _ & [X|[_ H2]]); [discriminate|auto].
Qed.
Print Assumptions C49_raises_iff.

(** in all other cases it says yes *)
Theorem C49_answers s e : (exists b, will_modify s e = Ok b) \/ will_modify s e = Raise AttributeError.
Proof.
  destruct (will_modify s e) as [b|x|] eqn:E; [eauto| |].
  - pose proof (proj1 (C49_raises_iff s e x) E) as [-> _]. now right.
  - exfalso. assert (AD : forall l, attendees_differ e l <> OutOfFuel).
    { induction l as [|[[a ro] st] l IH]; cbn [attendees_differ]; [discriminate|]. destruct a as [i|]; [|discriminate].
      unfold get_status, get_role. cbn [attendee_id rbind]. destruct (negb _); [discriminate|]. destruct (negb _); [discriminate|exact IH]. }
    unfold will_modify in E. destruct (attrs_differ s e); [discriminate|]. destruct (s_organizer s) as [o|]; [|discriminate].
    destruct (negb _); [discriminate|]. unfold get_status, get_role in E. cbn [attendee_id rbind] in E.
    destruct (negb _); [discriminate|]. destruct (negb _); [discriminate|]. now apply AD in E.
Qed.
Print Assumptions C49_answers.

Example C49_exact_case : will_modify (p_again "CHAIR" "DECLINED") p_event = Ok false
  /\ will_modify (p_spec (p_at 732500 18) (Some HOUR) false (Some "ann"%string) [(None, "CHAIR"%string, None)]) p_event = Raise AttributeError.
Proof. split; reflexivity. Qed.

Example C39_exact_case : let s := run cf0 (office ++ [OSetStatus 0 bob (Some "DECLINED"%string)]) in
  reachable cf0 s /\ get_attendee_ids (obj s 0) (Some "ACCEPTED"%string) (Some "CHAIR"%string) = Ok []
  /\ get_attendee_ids (obj s 0) (Some "DECLINED"%string) (Some "CHAIR"%string) = Raise KeyError.
Proof. cbv zeta. split; [apply run_reachable|]. vm_compute. auto. Qed.
