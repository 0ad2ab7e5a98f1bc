(** Property theorems C171: blocked and free periods while the calendar changes. *)
From Verif Require Import Base PyDate DateFacts Recurrent SpecRecur RecurProofs Util UtilProofs CalTime TimeProofs Event EventProofs Storage QueryProofs BlockProofs BlockForm
  ICal System SystemProofs PropSystem PropEvent PropThreads Reads PropReads BusyRun.
From Coq Require Import ZifyBool.
Ltac Zify.zify_post_hook ::= Z.div_mod_to_equations.
Local Opaque ord2ymd year_of month_of day_of ymd2ord days_in_month is_leap.

(** ** Specification *)
(** the event was stored when the call began to look for the attendee *)
Definition at_first (p : pass) (r : nat) : Prop := exists s ss, ps_look p = s :: ss /\ In r (refs_of s).
(** the states seen while the call deals with one attendee *)
Definition pass_seen (p : pass) : list system := ps_look p ++ flat_map (fun w => [fst (fst w); snd (fst w); snd w]) (ps_tell p).
(** the events have dates, durations and rules as they should be, all the time *)
Definition run_ok (k : brun) : Prop :=
  forall a p s r, In (a, p) k -> In s (ps_look p) -> at_first p r -> evs_ok [obj s r].
(** one of the people has a commitment at [t] that stands while they are dealt with *)
Definition standing (k : brun) (t : Z) : Prop := exists i p r, In (Some i, p) k /\ at_first p r
  /\ forall s, In s (pass_seen p) -> takes_time (obj s r) i /\ happens (obj s r) t.
(** one of the people had a reason to be busy at [t]: each part of it held at some moment *)
Definition reason (k : brun) (t : Z) : Prop := exists i p r, In (Some i, p) k /\ at_first p r
  /\ once (ps_look p) (fun s => takes_part (obj s r) i)
  /\ once (ps_look p) (fun s => happens (obj s r) t)
  /\ exists s1 s2 s3, In (s1, s2, s3) (ps_tell p) /\ e_transparent (obj s1 r) = false /\ e_status (obj s2 r) <> "CANCELED"%string
       /\ dget (e_state (obj s3 r)) i <> Some "DECLINED"%string /\ dget (e_state (obj s3 r)) i <> Some "DELEGATED"%string.
(** nobody changes the events stored, nor which they are, in state [s0] *)
Definition still (s0 : system) (k : brun) : Prop := forall a p, In (a, p) k ->
  (exists s ss, ps_look p = s :: ss /\ refs_of s = refs_of s0)
  /\ forall s r, In s (pass_seen p) -> In r (refs_of s0) -> obj s r = obj s0 r.

(** ** The segments *)
Lemma entered_spec begins ends tb te s d l : window_ok tb te -> 0 <= d -> begins <= s ->
  entered begins ends tb te s (Some d) = Ok l -> forall x, In x l <-> s < ends /\ x = clipped tb te s (s + d).
Proof.
  intros [W1 W2] D0 B E x. unfold entered in E. unfold end_of, dt_add in E. destruct (dt_ok (s + d)); [|discriminate]. cbn [rbind] in E.
  replace (s + d <? begins) with false in E by lia.
  destruct (ends <=? s) eqn:L.
  { injection E as <-. split; [intros []|]. intros (H & _). lia. }
  injection E as <-. cbn [In]. unfold clipped. set (e := s + d) in *.
  assert (S1 : (if s <? combine (dt_date s) tb then combine (dt_date s) tb else s) = Z.max s (combine (dt_date s) tb))
    by (destruct (s <? combine (dt_date s) tb) eqn:?; lia).
  rewrite S1.
  assert (S2 : dt_date (Z.max s (combine (dt_date s) tb)) = dt_date s) by (unfold combine, dt_date, DAY in *; lia).
  rewrite S2.
  assert (S3 : (if combine (dt_date s) te <=? e then combine (dt_date s) te else e) = Z.min e (combine (dt_date s) te))
    by (destruct (combine (dt_date s) te <=? e) eqn:?; lia).
  rewrite S3. split.
  - intros [<-|[]]. split; [lia|reflexivity].
  - intros (_ & ->). now left.
Qed.

Lemma told_in a b e tb te os : forall ws l, told a b e tb te os ws = Ok l -> forall x, In x l ->
  exists o w y, In o os /\ In w ws /\ counts a (o_original o) w = Ok true /\ entered b e tb te (o_dtstart o) (o_duration o) = Ok y /\ In x y.
Proof.
  induction os as [|o os IH]; intros ws l E x X; cbn [told] in E; [injection E as <-; destruct X|].
  destruct ws as [|w ws]; [discriminate|].
  destruct (counts a (o_original o) w) as [c| |] eqn:C; try discriminate. cbn [rbind] in E.
  destruct (if c then _ else _) as [y| |] eqn:Y; try discriminate. cbn [rbind] in E.
  destruct (told a b e tb te os ws) as [r| |] eqn:R; try discriminate. cbn [rbind] in E. injection E as <-.
  apply in_app_iff in X as [X|X].
  - destruct c; [|injection Y as <-; destruct X]. exists o, w, y. cbn [In]. auto 6.
  - destruct (IH ws r R x X) as (o' & w' & y' & H1 & H2 & H3). exists o', w', y'. cbn [In]. auto.
Qed.
Lemma told_all a b e tb te os : forall ws l, told a b e tb te os ws = Ok l -> forall o, In o os ->
  exists w, In w ws /\ (counts a (o_original o) w = Ok true -> exists y, entered b e tb te (o_dtstart o) (o_duration o) = Ok y /\ incl y l).
Proof.
  induction os as [|o' os IH]; intros ws l E o O; [destruct O|]. cbn [told] in E.
  destruct ws as [|w ws]; [discriminate|].
  destruct (counts a (o_original o') w) as [c| |] eqn:C; try discriminate. cbn [rbind] in E.
  destruct (if c then _ else _) as [y| |] eqn:Y; try discriminate. cbn [rbind] in E.
  destruct (told a b e tb te os ws) as [r| |] eqn:R; try discriminate. cbn [rbind] in E. injection E as <-.
  destruct O as [->|O].
  - exists w. split; [now left|]. rewrite C. intros H. assert (c = true) by congruence. subst c. exists y. split; [exact Y|]. intros z Z. apply in_app_iff. now left.
  - destruct (IH ws r R o O) as (w' & W & H). exists w'. split; [now right|]. intros H'. destruct (H H') as (y' & Y' & I). exists y'. split; [exact Y'|]. intros z Z. apply in_app_iff. right. now apply I.
Qed.
Lemma seen_look p s : In s (ps_look p) -> In s (pass_seen p).
Proof. intros H. apply in_app_iff. now left. Qed.
Lemma seen_tell p s1 s2 s3 : In (s1, s2, s3) (ps_tell p) -> In s1 (pass_seen p) /\ In s2 (pass_seen p) /\ In s3 (pass_seen p).
Proof.
  intros H. assert (G : forall s, In s [s1; s2; s3] -> In s (pass_seen p)).
  { intros s S. apply in_app_iff. right. apply in_flat_map. exists (s1, s2, s3). split; [exact H|exact S]. }
  repeat split; apply G; cbn; auto.
Qed.

(** what is found for one attendee *)
Lemma expand_gives F e b pe os : evs_ok [e] -> expand F e (Some b, Some pe) = Ok os ->
  forall t d, e_duration e = Some d -> occurs e t -> b < t + d -> t < pe -> In (mkOcc t (Some d) e) os.
Proof.
  intros OK E t d D O B P.
  assert (G : get_occurrences F [e] (Some b, Some pe) None = Ok os).
  { unfold get_occurrences. cbn [assert_bounded rbind matching_events rfilter match_criteria null_criteria]. cbn. rewrite E. cbn [rbind]. now rewrite app_nil_r. }
  apply (get_occurrences_in _ _ _ _ _ _ OK G). exists e, t, d. split; [now left|]. split; [|auto 6].
  split; [discriminate|]. split; discriminate.
Qed.
Lemma looked_in F b e a p occs : (forall s r, In s (ps_look p) -> at_first p r -> evs_ok [obj s r]) ->
  looked F b e a (ps_look p) = Ok occs -> forall o, In o occs ->
  exists i, a = Some i /\ at_first p (o_original o) /\ (exists d, o_duration o = Some d /\ 0 <= d)
   /\ once (ps_look p) (fun s => takes_part (obj s (o_original o)) i)
   /\ once (ps_look p) (fun s => forall t, occ_covers o t -> happens (obj s (o_original o)) t).
Proof.
  intros OK L o O. unfold looked in L.
  destruct (ps_look p) as [|s ss] eqn:LK; [discriminate|].
  destruct (rturns _ (s :: ss)) as [| | | | | | | |[[l|l]|x|]] eqn:T; try discriminate. injection L as <-.
  apply in_map_iff in O as ([r oe] & <- & O). cbn [o_original o_duration fst snd].
  destruct (C170_expanded (busy_query F b e a) F s ss l eq_refl T r oe O) as (R & (_ & _ & M) & s' & S' & os & E & I).
  destruct (M [a] eq_refl) as (i & [->|[]] & TP & _).
  assert (AF : at_first p r) by (exists s, ss; auto).
  exists i. split; [reflexivity|]. split; [exact AF|].
  destruct (OK s' r S' AF _ (or_introl eq_refl)) as [(O1 & d & D & D0 & _) O2].
  apply (expand_in _ _ _ _ O1 O2 E) in I as (t0 & -> & OC & _). cbn [o_dtstart o_duration]. rewrite D.
  split; [eauto|]. split; [exact TP|]. exists s'. split; [exact S'|].
  intros t (d' & D' & T'). cbn in D'. injection D' as <-. exists t0, d. auto.
Qed.
Lemma looked_kept F b e i p occs r t : (forall s r, In s (ps_look p) -> at_first p r -> evs_ok [obj s r]) ->
  looked F b e (Some i) (ps_look p) = Ok occs -> at_first p r -> b <= t < e ->
  (forall s, In s (ps_look p) -> takes_part (obj s r) i /\ happens (obj s r) t) ->
  exists o, In o occs /\ o_original o = r /\ occ_covers o t.
Proof.
  intros OK L AF T H. unfold looked in L. assert (AF' := AF). destruct AF as (s & ss & LK & R). rewrite LK in *.
  destruct (rturns _ (s :: ss)) as [| | | | | | | |[[l|l]|x|]] eqn:RT; try discriminate. injection L as <-.
  destruct (C170_kept_occurrences_partial (busy_query F b e (Some i)) F s ss l r i eq_refl RT R) as (s' & S' & os & E & ALL).
  { intros s' S'. split; [discriminate|]. split; [discriminate|]. intros l' L'. cbn in L'. injection L' as <-.
    split; [now left|]. split; [now apply H|]. split; discriminate. }
  destruct (OK s' r S' AF' _ (or_introl eq_refl)) as [(O1 & d & D & D0 & _) O2].
  destruct (H s' S') as [_ (t0 & d' & D' & OC & T')]. rewrite D in D'. injection D' as <-.
  exists (mkOcc t0 (Some d) r). split; [|split; [reflexivity|exists d; auto]].
  apply in_map_iff. exists (r, mkOcc t0 (Some d) (obj s' r)). split; [reflexivity|]. apply ALL.
  apply (expand_gives _ _ _ _ _ (OK s' r S' AF') E); [exact D|exact OC|lia|lia].
Qed.

(** the part of the call for one attendee *)
Lemma counts_yes a r s1 s2 s3 : counts a r (s1, s2, s3) = Ok true -> e_transparent (obj s1 r) = false /\ e_status (obj s2 r) <> "CANCELED"%string
  /\ forall i, a = Some i -> dget (e_state (obj s3 r)) i <> Some "DECLINED"%string /\ dget (e_state (obj s3 r)) i <> Some "DELEGATED"%string.
Proof.
  unfold counts. destruct (e_transparent (obj s1 r)); cbn [orb]; [discriminate|].
  destruct (String.eqb_spec (e_status (obj s2 r)) "CANCELED") as [C|C]; [discriminate|].
  intros E. split; [reflexivity|]. split; [exact C|]. intros i ->. unfold get_status in E. cbn [attendee_id rbind] in E.
  destruct (dget (e_state (obj s3 r)) i) as [v|]; [|split; discriminate].
  split; intros X; injection X as ->; vm_compute in E; discriminate.
Qed.
Lemma counts_takes i r s1 s2 s3 : takes_time (obj s1 r) i -> takes_time (obj s2 r) i -> takes_time (obj s3 r) i -> counts (Some i) r (s1, s2, s3) = Ok true.
Proof.
  intros (T & _) (_ & S & _) (_ & _ & st & A & N1 & N2). unfold counts, get_status. rewrite T. cbn [orb attendee_id rbind].
  destruct (String.eqb_spec (e_status (obj s2 r)) "CANCELED") as [C|C]; [contradiction|].
  unfold attends in A. rewrite A. cbn [rbind]. replace (str_in st ["DECLINED"; "DELEGATED"]%string) with false; [reflexivity|].
  symmetry. apply not_true_iff_false. rewrite str_in_iff. cbn [In]. intros [X|[X|[]]]; congruence.
Qed.

Lemma looked_durations F b e a p occs : (forall s r, In s (ps_look p) -> at_first p r -> evs_ok [obj s r]) ->
  looked F b e a (ps_look p) = Ok occs -> durations_ok occs.
Proof. intros OK L o O. destruct (looked_in _ _ _ _ _ _ OK L o O) as (i & _ & _ & D & _). exact D. Qed.

Lemma pass_inv F begins ends tb te a p ba : (forall s r, In s (ps_look p) -> at_first p r -> evs_ok [obj s r]) ->
  dt_ok ends = true -> window_ok tb te -> pass_blocked F begins ends tb te (a, p) = Ok ba ->
  (forall x, In x ba -> exists s e, x = clipped tb te s e /\ begins <= s /\ s <= e <= ends /\ s < ends
     /\ (s < e -> e <= (dt_date s + 1) * DAY))
  /\ (forall t, covers ba t -> exists i r, a = Some i /\ at_first p r
       /\ once (ps_look p) (fun s => takes_part (obj s r) i) /\ once (ps_look p) (fun s => happens (obj s r) t)
       /\ exists s1 s2 s3, In (s1, s2, s3) (ps_tell p) /\ e_transparent (obj s1 r) = false /\ e_status (obj s2 r) <> "CANCELED"%string
            /\ dget (e_state (obj s3 r)) i <> Some "DECLINED"%string /\ dget (e_state (obj s3 r)) i <> Some "DELEGATED"%string)
  /\ (forall t i r, begins <= t < ends -> ~ outside tb te t -> a = Some i -> at_first p r ->
        (forall s, In s (pass_seen p) -> takes_time (obj s r) i /\ happens (obj s r) t) -> covers ba t).
Proof.
  intros OK OE W E. unfold pass_blocked in E. cbn [fst snd] in E.
  destruct (looked F begins ends a (ps_look p)) as [occs| |] eqn:L; try discriminate. cbn [rbind] in E.
  destruct (segment_occurrences (begins, ends) occs) as [segs| |] eqn:S; try discriminate. cbn [rbind] in E.
  assert (DU := looked_durations _ _ _ _ _ _ OK L).
  assert (IN : forall x, In x ba -> exists o w d, In o segs /\ In w (ps_tell p) /\ counts a (o_original o) w = Ok true /\ o_duration o = Some d
     /\ 0 <= d /\ begins <= o_dtstart o /\ o_dtstart o + d <= ends /\ o_dtstart o < ends /\ x = clipped tb te (o_dtstart o) (o_dtstart o + d)
     /\ (0 < d -> o_dtstart o + d <= (dt_date (o_dtstart o) + 1) * DAY)).
  { intros x X. destruct (told_in _ _ _ _ _ _ _ _ E x X) as (o & w & y & H1 & H2 & H3 & H4 & H5).
    destruct (segments_within _ _ _ _ OE DU S o H1) as (occ & d & d' & _ & _ & _ & D' & D0 & B1 & B2 & _ & _ & D & B3 & B4).
    rewrite D' in H4. apply (entered_spec _ _ _ _ _ _ _ W D0 B1 H4) in H5 as [H5 ->].
    exists o, w, d'. do 9 (split; [assumption || reflexivity|]). intros P. unfold dt_date, DAY in *. lia. }
  split; [|split].
  - intros x X. destruct (IN x X) as (o & w & d & _ & _ & _ & _ & D0 & B1 & B2 & B3 & -> & B4).
    exists (o_dtstart o), (o_dtstart o + d). split; [reflexivity|]. split; [exact B1|]. split; [lia|]. split; [exact B3|]. intros P. apply B4. lia.
  - intros t (s & e & X & T). destruct (IN _ X) as (o & [[s1 s2] s3] & d & O & W' & C & D & D0 & B1 & B2 & B3 & Q & B4).
    assert (CO : occ_covers o t). { exists d. split; [exact D|]. unfold clipped in Q. injection Q as -> ->. lia. }
    destruct (proj1 (segments_coverage _ _ _ _ OE DU S (o_original o) t)) as (_ & occ & O' & Q' & CO'); [eauto|].
    destruct (looked_in _ _ _ _ _ _ OK L occ O') as (i & -> & AF & _ & TP & HP). rewrite Q' in *.
    destruct (counts_yes _ _ _ _ _ C) as (C1 & C2 & C3). destruct (C3 i eq_refl) as [C4 C5].
    exists i, (o_original o). split; [reflexivity|]. split; [exact AF|]. split; [exact TP|]. split.
    + destruct HP as (s' & S' & HP). exists s'. split; [exact S'|]. now apply HP.
    + exists s1, s2, s3. auto.
  - intros t i r T NO -> AF ST.
    destruct (looked_kept _ _ _ _ _ _ r t OK L AF T) as (occ & O & Q & CO).
    { intros s S'. destruct (ST s (seen_look _ _ S')) as [(_ & _ & st & A & _) HP]. split; [|exact HP]. unfold takes_part. unfold attends in A. rewrite A. discriminate. }
    destruct (proj2 (segments_coverage _ _ _ _ OE DU S r t)) as (o & O' & Q' & d & D & TD); [split; [exact T|]; eauto|].
    destruct (told_all _ _ _ _ _ _ _ _ E o O') as ([[s1 s2] s3] & W' & H).
    destruct (seen_tell _ _ _ _ W') as (S1 & S2 & S3). rewrite Q' in H.
    destruct H as (y & Y & I); [apply counts_takes; now apply ST|].
    destruct (segments_within _ _ _ _ OE DU S o O') as (_ & _ & d' & _ & _ & _ & D' & D0 & B1 & B2 & _ & _ & K & B3 & B4).
    rewrite D in D'. injection D' as <-. rewrite D in Y.
    assert (X : In (clipped tb te (o_dtstart o) (o_dtstart o + d)) y) by (apply (entered_spec _ _ _ _ _ _ _ W D0 B1 Y); split; [lia|reflexivity]).
    apply I in X. unfold clipped in X. eexists _, _. split; [exact X|].
    destruct W as [W1 W2]. unfold outside in NO. unfold combine, dt_date, dt_time, DAY in *. lia.
Qed.

(** the whole call *)
Lemma run_inv F k begins ends tb te l : run_ok k -> dt_ok begins = true -> dt_ok ends = true -> window_ok tb te ->
  blocked_run F k begins ends tb te = Ok l ->
  exists bl, built begins ends tb te bl l
    /\ (forall t, covers bl t -> reason k t)
    /\ (forall t, begins <= t < ends -> ~ outside tb te t -> standing k t -> covers bl t).
Proof.
  intros OK OB OE W E. unfold blocked_run in E.
  destruct (rconcat_map _ k) as [bl| |] eqn:BL; try discriminate. cbn [rbind] in E.
  assert (ED : (if dt_time ends =? 0 then date_add (dt_date ends) (-1) else Ok (dt_date ends))
      = Ok (dt_date (ends + DAY - 1) - 1)).
  { apply dt_ok_date in OE. unfold date_add.
    destruct (dt_time ends =? 0) eqn:TZ.
    - destruct ((1 <=? dt_date ends + -1) && (dt_date ends + -1 <=? MAXORD)) eqn:R.
      + f_equal. unfold dt_date, dt_time, DAY in *. lia.
      + exfalso. unfold date_add in E. rewrite R in E. discriminate.
    - f_equal. unfold dt_date, dt_time, DAY in *. lia. }
  rewrite ED in E. cbn [rbind] in E. set (K := dt_date (ends + DAY - 1)) in *.
  destruct (night_blocks _ tb te (dt_date begins) (K - 1)) as [nb| |] eqn:NB; try discriminate.
  cbn [rbind] in E. injection E as <-.
  assert (NBS := night_in _ _ _ _ _ _ NB ltac:(unfold night_fuel; lia)).
  assert (PI : forall a p ba, In (a, p) k -> pass_blocked F begins ends tb te (a, p) = Ok ba -> _) by
    (intros a p ba I PB; exact (pass_inv F begins ends tb te a p ba (fun s r S A => OK a p s r I S A) OE W PB)).
  exists bl. split; [|split].
  - exists nb. split; [reflexivity|]. split.
    + intros x X. apply (rconcat_in _ _ _ BL) in X as ([a p] & ba & I & PB & X). destruct (PI a p ba I PB) as [H _]. now apply H.
    + intros x. rewrite NBS. split; intros (j & K1 & K2); exists j; (split; [lia|exact K2]).
  - intros t (s & e & X & T). apply (rconcat_in _ _ _ BL) in X as ([a p] & ba & I & PB & X). destruct (PI a p ba I PB) as (_ & H & _).
    destruct (H t) as (i & r & -> & R); [exists s, e; auto|]. exists i, p, r. auto.
  - intros t T NO (i & p & r & I & AF & ST). destruct (rconcat_all _ _ _ BL _ I) as [ba PB]. destruct (PI _ _ ba I PB) as (_ & _ & H).
    destruct (H t i r T NO eq_refl AF ST) as (s & e & X & T'). exists s, e. split; [|exact T']. apply (rconcat_in _ _ _ BL). eauto.
Qed.

(** ** Blocked periods *)
(** a commitment that stands while its person is dealt with is never missing *)
Theorem C171_blocked : forall F k begins ends tb te l, run_ok k -> dt_ok begins = true -> dt_ok ends = true -> window_ok tb te ->
  blocked_run F k begins ends tb te = Ok l ->
  forall t, begins <= t < ends -> outside tb te t \/ standing k t -> covers l t.
Proof.
  intros F k begins ends tb te l OK OB OE W E t T H. destruct (run_inv _ _ _ _ _ _ _ OK OB OE W E) as (bl & B & _ & K).
  apply (built_covers _ _ _ _ _ _ W B t T). assert (D : outside tb te t \/ ~ outside tb te t) by (unfold outside; lia).
  destruct D as [D|D]; [now left|]. destruct H as [H|H]; [now left|]. right. now apply K.
Qed.
Print Assumptions C171_blocked.

(** nothing is blocked without a reason *)
Theorem C171_reason : forall F k begins ends tb te l, run_ok k -> dt_ok begins = true -> dt_ok ends = true -> window_ok tb te ->
  blocked_run F k begins ends tb te = Ok l ->
  forall t, begins <= t < ends -> covers l t -> outside tb te t \/ reason k t.
Proof.
  intros F k begins ends tb te l OK OB OE W E t T H. destruct (run_inv _ _ _ _ _ _ _ OK OB OE W E) as (bl & B & R & _).
  destruct (proj1 (built_covers _ _ _ _ _ _ W B t T) H) as [H'|H']; [now left|right; now apply R].
Qed.
Print Assumptions C171_reason.

(** whatever the others do, the periods are in order, apart, and each begins before it ends or when *)
Theorem C171_form : forall F k begins ends tb te l, run_ok k -> dt_ok begins = true -> dt_ok ends = true -> window_ok tb te ->
  blocked_run F k begins ends tb te = Ok l ->
  gapped l /\ Forall (fun x => fst x <= snd x) l.
Proof.
  intros F k begins ends tb te l OK OB OE W E. destruct (run_inv _ _ _ _ _ _ _ OK OB OE W E) as (bl & B & _).
  exact (built_form _ _ _ _ _ _ OB OE W B).
Qed.
Print Assumptions C171_form.

(** ** Free periods *)
(** the free periods are proper, in order, inside the period and the working hours, long enough
    and never during a commitment that stands; and all time is free for which nobody had a
    reason, unless it is too short *)
Theorem C171_free : forall F k begins ends tb te m l, run_ok k -> dt_ok begins = true -> dt_ok ends = true -> begins < ends -> window_ok tb te ->
  dt_time begins <= tb -> dt_time ends = 0 -> free_run F k begins ends tb te m = Ok l ->
  (forall x, In x l -> fst x < snd x /\ begins <= fst x /\ snd x <= ends /\ long_enough m (snd x - fst x) = true
     /\ forall t, fst x <= t < snd x -> ~ outside tb te t /\ ~ standing k t)
  /\ ForallOrdPairs (fun x y => snd x <= fst y) l
  /\ (m = None -> forall t, begins <= t < ends -> ~ outside tb te t -> ~ reason k t -> covers l t).
Proof.
  intros F k begins ends tb te m l OK OB OE BE W TB TE E. unfold free_run in E.
  destruct (blocked_run F k begins ends tb te) as [B| |] eqn:BR; try discriminate. cbn [rbind] in E. injection E as E.
  destruct (run_inv _ _ _ _ _ _ _ OK OB OE W BR) as (bl & BU & R & K).
  assert (EX := free_of_exact _ _ _ _ _ _ OB OE BE W TB TE BU). cbv zeta in EX. destruct EX as (X1 & X2 & X3 & X4).
  assert (FI : l = filter (fun x => long_enough m (snd x - fst x)) (free_of begins ends tb te None B)).
  { destruct (free_of_eq _ _ _ _ m _ _ OB OE BE W TB TE BU) as (s1 & e1 & r & Q & H & _).
    destruct (free_of_eq _ _ _ _ None _ _ OB OE BE W TB TE BU) as (s1' & e1' & r' & Q' & H' & _).
    rewrite Q in Q'. injection Q' as <- <- <-. rewrite H'. cbn [long_enough].
    assert (NF : forall z : list (Z * Z), filter (fun x => true) z = z) by (induction z as [|z0 z IH]; [reflexivity|]; cbn; now rewrite IH).
    rewrite NF, <- H. symmetry. exact E. }
  set (f := free_of begins ends tb te None B) in *. rewrite Forall_forall in X1.
  split; [|split].
  - intros x X. rewrite FI in X. apply filter_In in X as [X LE]. specialize (X1 x X). unfold nonempty in X1. destruct (X3 x X) as [Y1 Y2].
    split; [exact X1|]. split; [exact Y1|]. split; [exact Y2|]. split; [exact LE|]. intros t T.
    destruct (proj1 (X4 t)) as (T' & NO & NB); [exists (fst x), (snd x); split; [now destruct x|exact T]|].
    split; [exact NO|]. intros ST. apply NB. now apply K.
  - rewrite FI. clear FI E X3 X4. clearbody f. clear -X1 X2.
    assert (SO : ForallOrdPairs (fun x y : Z * Z => snd x <= fst y) f).
    { induction f as [|x f IH]; [constructor|]. cbn [ordered] in X2. destruct X2 as [Y X2].
      assert (IHF := IH (fun z Z => X1 z (or_intror Z)) X2). constructor; [|exact IHF].
      destruct f as [|y f]; [constructor|]. inversion IHF as [|? ? F1 _]; subst. assert (NY := X1 y (or_intror (or_introl eq_refl))). unfold nonempty in NY.
      constructor; [exact Y|]. eapply Forall_impl; [|exact F1]. cbn beta. intros z Z. lia. }
    clear X1 X2. induction SO as [|x f F1 SO IH]; [constructor|]. cbn [filter]. destruct (long_enough _ _); [|exact IH].
    constructor; [|exact IH]. apply Forall_forall. intros z Z. apply filter_In in Z as [Z _]. rewrite Forall_forall in F1. now apply F1.
  - intros M t T NO NR. destruct (proj2 (X4 t)) as (s & e & I & T').
    { split; [exact T|]. split; [exact NO|]. intros C. now apply NR, R. }
    exists s, e. split; [|exact T']. rewrite FI. apply filter_In. split; [exact I|]. now rewrite M.
Qed.
Print Assumptions C171_free.

(** ** When nobody changes anything *)
Definition omap {A B} (f : A -> B) (o : occurrence A) : occurrence B := mkOcc (o_dtstart o) (o_duration o) (f (o_original o)).
Lemma emit_map {A B} (f : A -> B) x p : forall rb e, emit_segments (f x) p e rb = let* l := emit_segments x p e rb in Ok (map (omap f) l).
Proof.
  induction rb as [|s rb IH]; intros e; [reflexivity|]. cbn [emit_segments]. destruct (in_period s (Some (e - s)) p) as [b| |]; [|reflexivity..]. cbn [rbind].
  rewrite IH. destruct (emit_segments x p s rb) as [r| |]; [|reflexivity..]. cbn [rbind]. destruct b; reflexivity.
Qed.
Lemma emit_original {A} (x : A) p : forall rb e l, emit_segments x p e rb = Ok l -> forall o, In o l -> o_original o = x.
Proof.
  induction rb as [|s rb IH]; intros e l E o O; cbn [emit_segments] in E; [injection E as <-; destruct O|].
  destruct (in_period s (Some (e - s)) p) as [b| |]; try discriminate. cbn [rbind] in E.
  destruct (emit_segments x p s rb) as [r| |] eqn:R; try discriminate. cbn [rbind] in E. injection E as <-.
  destruct b; [destruct O as [<-|O]; [reflexivity|]|]; eapply IH; eassumption.
Qed.
Lemma segment_one_map {A B} (f : A -> B) b e o : segment_one b e (omap f o) = let* l := segment_one b e o in Ok (map (omap f) l).
Proof.
  unfold segment_one. cbn [omap o_dtstart o_duration o_original]. destruct (end_of (o_dtstart o) (o_duration o)) as [y| |]; [|reflexivity..]. cbn [rbind].
  destruct (day_borders _ _ y e) as [bo| |]; [|reflexivity..]. cbn [rbind]. apply emit_map.
Qed.
Lemma segment_one_original {A} b e (o : occurrence A) l : segment_one b e o = Ok l -> forall x, In x l -> o_original x = o_original o.
Proof.
  unfold segment_one. destruct (end_of (o_dtstart o) (o_duration o)) as [y| |]; [|discriminate..]. cbn [rbind].
  destruct (day_borders _ _ y e) as [bo| |]; [|discriminate..]. cbn [rbind]. apply emit_original.
Qed.
Lemma segments_map {A B} (f : A -> B) p l : segment_occurrences p (map (omap f) l) = let* r := segment_occurrences p l in Ok (map (omap f) r).
Proof.
  unfold segment_occurrences. induction l as [|o l IH]; [reflexivity|]. cbn [map rconcat_map]. rewrite segment_one_map.
  destruct (segment_one (fst p) (snd p) o) as [x| |]; [|reflexivity..]. cbn [rbind]. rewrite IH.
  destruct (rconcat_map _ l) as [r| |]; [|reflexivity..]. cbn [rbind]. now rewrite map_app.
Qed.
Lemma expand_original F e p os o : expand F e p = Ok os -> In o os -> o_original o = e.
Proof.
  unfold expand. destruct (e_recurrence e) as [r|].
  - destruct (snd p); [|discriminate]. destruct (apply F r _ _) as [l f]. destruct (expand_dates e p l) as [out| |] eqn:X; try discriminate. cbn [rbind].
    intros E O. assert (out = os) by (destruct f; congruence). subst os. apply (expand_dates_in _ _ _ _ X) in O as (d & _ & _ & ->). reflexivity.
  - destruct (in_period _ _ p) as [b| |]; try discriminate. cbn [rbind]. intros E O. injection E as <-. destruct b; [|destruct O]. destruct O as [<-|[]]. reflexivity.
Qed.

(** in a still state a look gives what getOccurrences gives *)
Lemma looked_still F b e a p s0 s ss : ps_look p = s :: ss -> refs_of s = refs_of s0 ->
  (forall s' r, In s' (pass_seen p) -> In r (refs_of s0) -> obj s' r = obj s0 r) ->
  (limit (busy_query F b e a) s0 <= List.length ss)%nat ->
  (let* occs := looked F b e a (ps_look p) in Ok (map (omap (obj s0)) occs)) = get_occurrences F (stored s0) (Some b, Some e) (att_criteria a)
  /\ forall occs, looked F b e a (ps_look p) = Ok occs -> forall o, In o occs -> In (o_original o) (refs_of s0).
Proof.
  intros LK RF OB LI. rewrite LK.
  assert (S0 : forall s' r, In s' (s :: ss) -> In r (refs_of s0) -> obj s' r = obj s0 r) by (intros s' r S; apply OB, seen_look; now rewrite LK).
  assert (ST : stored s = stored s0).
  { unfold stored. assert (M : forall s, map (fun kv : string * nat => obj s (snd kv)) (sys_store s) = map (obj s) (refs_of s)) by (intros; unfold refs_of; now rewrite map_map).
    rewrite !M, RF. apply map_ext_in. intros r R. apply S0; [now left|exact R]. }
  destruct (C170_quiet (busy_query F b e a) s ss) as (x & X & AS).
  { intros s' r S R. rewrite RF in R. rewrite (S0 s' r (or_intror S) R), (S0 s r (or_introl eq_refl) R). reflexivity. }
  { assert (LE : List.length (sys_store s) = List.length (sys_store s0)) by (unfold refs_of in RF; rewrite <- (map_length snd (sys_store s)), RF; apply map_length).
    unfold limit in *. rewrite LE. exact LI. }
  unfold as_of in AS. cbn [busy_query q_kind q_period q_crit] in AS. rewrite ST in AS. unfold looked. rewrite X. unfold att_criteria.
  destruct (get_occurrences F (stored s0) _ _) as [l|y|].
  - destruct AS as (out & -> & <-).
    assert (C := C170_expanded (busy_query F b e a) F s ss out eq_refl X).
    split.
    + cbn [rbind]. f_equal. rewrite map_map. apply map_ext_in. intros [r o] I. cbn [omap o_dtstart o_duration o_original fst snd]. unfold omap. cbn [o_dtstart o_duration o_original].
      destruct (C r o I) as (R & _ & s' & S' & os & E & O). rewrite RF in R. rewrite <- (S0 s' r S' R), <- (expand_original _ _ _ _ _ E O). now destruct o.
    + intros occs Q. injection Q as <-. intros o O. apply in_map_iff in O as ([r oe] & <- & O). cbn [o_original fst]. rewrite <- RF. now apply (C r oe O).
  - subst x. split; [reflexivity|discriminate].
  - subst x. split; [reflexivity|discriminate].
Qed.
Lemma told_still a b e tb te s0 : forall os ws, (List.length os <= List.length ws)%nat ->
  (forall o s1 s2 s3, In o os -> In (s1, s2, s3) ws -> obj s1 (o_original o) = obj s0 (o_original o) /\ obj s2 (o_original o) = obj s0 (o_original o) /\ obj s3 (o_original o) = obj s0 (o_original o)) ->
  told a b e tb te os ws = rconcat_map (blocked_of a b e tb te) (map (omap (obj s0)) os).
Proof.
  induction os as [|o os IH]; intros ws L H; [reflexivity|]. destruct ws as [|[[s1 s2] s3] ws]; [cbn in L; lia|].
  cbn [told map rconcat_map]. destruct (H o s1 s2 s3 (or_introl eq_refl) (or_introl eq_refl)) as (H1 & H2 & H3).
  rewrite (IH ws) by (try (cbn in L; lia); intros; apply H; now right).
  unfold counts, blocked_of, blocks. cbn [omap o_original o_dtstart o_duration]. rewrite H1, H2, H3.
  match goal with |- rbind ?x _ = _ => destruct x as [c| |]; [|reflexivity..] end. cbn [rbind].
  destruct c; reflexivity.
Qed.

(** how many segments there are at most for any of the attendees *)
Lemma segments_bound F s0 b e atts : exists N, forall a occs segs, In a atts ->
  get_occurrences_segmented F (stored s0) (Some b, Some e) (att_criteria a) = Ok occs -> map (omap (obj s0)) segs = occs -> (List.length segs <= N)%nat.
Proof.
  induction atts as [|a atts [N IH]]; [exists 0%nat; intros ? ? ? []|].
  exists (N + match get_occurrences_segmented F (stored s0) (Some b, Some e) (att_criteria a) with Ok l => List.length l | _ => 0 end)%nat.
  intros a' occs segs [<-|I] E M.
  - rewrite E, <- M, map_length. lia.
  - specialize (IH a' occs segs I E M). lia.
Qed.

(** the answer is that of a single thread if nobody touches the events meanwhile *)
Theorem C171_still : forall F s0 atts begins ends tb te, exists N, forall k m, map fst k = atts -> still s0 k ->
  (forall a p, In (a, p) k -> (limit (busy_query F begins ends a) s0 < List.length (ps_look p))%nat /\ (N <= List.length (ps_tell p))%nat) ->
  blocked_run F k begins ends tb te = get_blocked F (stored s0) atts begins ends tb te
  /\ free_run F k begins ends tb te m = get_free F (stored s0) atts begins ends tb te m.
Proof.
  intros F s0 atts b e tb te. destruct (segments_bound F s0 b e atts) as [N BN]. exists N. intros k m MK ST LE.
  enough (B : blocked_run F k b e tb te = get_blocked F (stored s0) atts b e tb te).
  { split; [exact B|]. unfold free_run, get_free. now rewrite B. }
  unfold blocked_run, get_blocked.
  assert (G : rconcat_map (pass_blocked F b e tb te) k = rconcat_map (fun a =>
      let* occs := get_occurrences_segmented F (stored s0) (Some b, Some e) (Some (mk_criteria (AMany [a]) None None None None)) in
      rconcat_map (blocked_of a b e tb te) occs) atts); [|now rewrite G].
  assert (IA : forall a p, In (a, p) k -> In a atts) by (intros a p I; rewrite <- MK; now apply (in_map fst) in I).
  rewrite <- MK. clear MK. induction k as [|[a p] k IH]; [reflexivity|]. cbn [map rconcat_map fst].
  rewrite IH; [|intros a' p' I; apply (ST a' p'); now right|intros a' p' I; apply LE; now right|intros a' p' I; apply (IA a' p'); now right].
  clear IH. match goal with |- rbind ?x _ = rbind ?y _ => enough (Q : x = y) by now rewrite Q end.
  destruct (ST a p (or_introl eq_refl)) as [(s & ss & LK & RF) OB]. destruct (LE a p (or_introl eq_refl)) as [L1 L2].
  destruct (looked_still F b e a p s0 s ss LK RF OB) as [LQ LR]; [rewrite LK in L1; cbn [List.length] in L1; lia|].
  assert (BN' := BN a). specialize (IA a p (or_introl eq_refl)).
  unfold pass_blocked. cbn [fst snd]. unfold get_occurrences_segmented, att_criteria in *. rewrite <- LQ in *. clear LQ.
  destruct (looked F b e a (ps_look p)) as [occs| |]; [|reflexivity..]. cbn [rbind assert_bounded] in *. rewrite segments_map in *.
  destruct (segment_occurrences (b, e) occs) as [segs| |] eqn:S; [|reflexivity..]. cbn [rbind] in *.
  apply told_still.
  - specialize (BN' _ segs IA eq_refl eq_refl). lia.
  - intros o s1 s2 s3 O W. destruct (seen_tell _ _ _ _ W) as (S1 & S2 & S3).
    assert (R : In (o_original o) (refs_of s0)).
    { apply (segments_in _ _ _ _ S) in O as (occ & sg & O1 & O2 & O3). rewrite (segment_one_original _ _ _ _ O2 _ O3). now apply (LR occs). }
    split; [now apply OB|split; now apply OB].
Qed.
Print Assumptions C171_still.

(** ** What the code does not give *)
Definition bz_spec (h : Z) : spec := p_spec (p_at 732502 h) (Some HOUR) false bob [(ann, "REQ-PARTICIPANT", Some "ACCEPTED"); (bob, "CHAIR", Some "DECLINED")]%string.
Definition bz_now (ops : list op) : system :=
  run cf0 ([OCreate (Some "m"%string) (bz_spec 9) 0; OCreate (Some "n"%string) (bz_spec 9) 0] ++ ops).
Definition bz_from : Z := p_at 732502 0.
Definition bz_to : Z := p_at 732503 0.
Definition bz_free (s : system) := get_free 5 (stored s) [ann] bz_from bz_to (8 * HOUR) (17 * HOUR) None.
Definition bz_run (s : system) (ws : list (system * system * system)) : brun := [(ann, mkPass (repeat s 30) ws)].
Definition bz_at (h h' : Z) : Z * Z := (p_at 732502 h, p_at 732502 h').

(** time can be called free although the person is busy at every moment, first with one event,
    then with another *)
Theorem C171_always_refuted :
  exists o1 o2 o3, let A := bz_now [o1] in let B := bz_now [o1; o2] in let C := bz_now [o1; o2; o3] in
  free_run 5 (bz_run A [(A, A, A); (C, C, C)]) bz_from bz_to (8 * HOUR) (17 * HOUR) None = Ok [bz_at 8 17]
  /\ bz_free A = Ok [bz_at 8 9; bz_at 10 17] /\ bz_free B = Ok [bz_at 8 9; bz_at 10 17] /\ bz_free C = Ok [bz_at 8 9; bz_at 10 17].
Proof.
  exists (OSetStatus 0 ann (Some "DECLINED"))%string, (OSetStatus 0 ann (Some "ACCEPTED"))%string, (OSetStatus 1 ann (Some "DECLINED"))%string.
  vm_compute. repeat split.
Qed.
Print Assumptions C171_always_refuted.

(** time can be called blocked although the person is free then at every moment: the event is
    moved away before they accept it *)
Theorem C171_never_refuted :
  exists o1 o2 o3, let A := bz_now [ODelete 1; o1] in let B := bz_now [ODelete 1; o1; o2] in let C := bz_now [ODelete 1; o1; o2; o3] in
  free_run 5 (bz_run A [(C, C, C)]) bz_from bz_to (8 * HOUR) (17 * HOUR) None = Ok [bz_at 8 9; bz_at 10 17]
  /\ bz_free A = Ok [bz_at 8 17] /\ bz_free B = Ok [bz_at 8 17] /\ bz_free C = Ok [bz_at 8 12; bz_at 13 17].
Proof.
  exists (OSetStatus 0 ann (Some "DECLINED"))%string, (OAssign 0 (bz_spec 12)), (OSetStatus 0 ann (Some "ACCEPTED"))%string.
  vm_compute. repeat split.
Qed.
Print Assumptions C171_never_refuted.

(** ** Cases *)
(** while two people are looked at, one event is deleted and a role changes in the other *)
Definition bz_then : system := bz_now [ODelete 1; OSetRole 0 ann "CHAIR"%string].
Definition bz_busy : brun :=
  [(ann, mkPass (bz_now [] :: repeat bz_then 29) [(bz_then, bz_then, bz_then); (bz_then, bz_then, bz_then)]);
   (bob, mkPass (repeat bz_then 30) [(bz_then, bz_then, bz_then)])].
Lemma bz_facts s r : s = bz_now [] \/ s = bz_then -> r = 0%nat \/ r = 1%nat ->
  e_recurrence (obj s r) = None /\ e_dtstart (obj s r) = p_at 732502 9 /\ e_duration (obj s r) = Some HOUR
  /\ e_transparent (obj s r) = false /\ String.eqb (e_status (obj s r)) "CANCELED" = false /\ dget (e_state (obj s r)) "ann" = Some "ACCEPTED"%string.
Proof. intros [-> | ->] [-> | ->]; vm_compute; repeat split. Qed.
Lemma bz_refs : refs_of (bz_now []) = [0; 1]%nat /\ refs_of bz_then = [0%nat].
Proof. vm_compute. repeat split. Qed.
Lemma bz_good s r : s = bz_now [] \/ s = bz_then -> r = 0%nat \/ r = 1%nat -> evs_ok [obj s r].
Proof.
  intros S R. destruct (bz_facts s r S R) as (E1 & E2 & E3 & _). intros e' [<-|[]]. split; [|unfold event_rule_ok; now rewrite E1].
  split; [rewrite E2; reflexivity|]. exists HOUR. rewrite E2. split; [exact E3|]. split; [unfold HOUR; lia|reflexivity].
Qed.
Lemma bz_free_now : free_run 5 bz_busy bz_from bz_to (8 * HOUR) (17 * HOUR) None = Ok [bz_at 8 9; bz_at 10 17]
  /\ free_run 5 bz_busy bz_from bz_to (8 * HOUR) (17 * HOUR) (Some (2 * HOUR)) = Ok [bz_at 10 17].
Proof. vm_compute. repeat split. Qed.
Lemma repeat_head {A} (x y : A) n l : repeat x n = y :: l -> y = x.
Proof. intros E. apply (repeat_spec n). rewrite E. now left. Qed.
Example C171_case :
  run_ok bz_busy /\ window_ok (8 * HOUR) (17 * HOUR) /\ dt_time bz_from <= 8 * HOUR /\ dt_time bz_to = 0
  /\ free_run 5 bz_busy bz_from bz_to (8 * HOUR) (17 * HOUR) None = Ok [bz_at 8 9; bz_at 10 17]
  /\ free_run 5 bz_busy bz_from bz_to (8 * HOUR) (17 * HOUR) (Some (2 * HOUR)) = Ok [bz_at 10 17]
  /\ standing bz_busy (p_at 732502 9).
Proof.
  destruct bz_refs as [R1 R2]. assert (G := bz_good). assert (FA := bz_facts). destruct bz_free_now as [FN1 FN2].
  split; [|split; [unfold window_ok, HOUR, DAY; lia|split; [vm_compute; discriminate|split; [reflexivity|split; [exact FN1|split; [exact FN2|]]]]]];
  clear FN1 FN2; unfold bz_busy; revert R1 R2 G FA; generalize bz_then; generalize (bz_now []); intros no th R1 R2 G FA.
  - intros a p s r I S (s0 & ss & LK & R).
    assert (C : (p = mkPass (no :: repeat th 29) [(th, th, th); (th, th, th)]) \/ (p = mkPass (repeat th 30) [(th, th, th)])).
    { destruct I as [I|[I|[]]]; [left|right]; now inversion I. }
    clear I. destruct C as [-> | ->]; cbn [ps_look] in LK, S.
    + assert (s0 = no) by now inversion LK. subst s0. rewrite R1 in R. apply G.
      * destruct S as [<-|S]; [now left|right; now apply repeat_spec in S].
      * destruct R as [<-|[<-|[]]]; auto.
    + assert (s0 = th) by (eapply repeat_head; exact LK). subst s0. rewrite R2 in R. apply G.
      * right; now apply repeat_spec in S.
      * destruct R as [<-|[]]; auto.
  - exists "ann"%string. eexists. exists 0%nat. split; [now left|]. split; [exists no, (repeat th 29); split; [reflexivity|rewrite R1; now left]|].
    intros s S. assert (SS : s = no \/ s = th).
    { unfold pass_seen in S. cbn [ps_look ps_tell] in S. apply in_app_iff in S. destruct S as [[S|S]|S]; [now left|right; now apply repeat_spec in S|].
      right. cbn [flat_map fst snd app In] in S. intuition. }
    destruct (FA s 0%nat SS (or_introl eq_refl)) as (E1 & E2 & E3 & E4 & E5 & E6). split.
    + split; [exact E4|]. split; [intros X; rewrite X in E5; discriminate|]. exists "ACCEPTED"%string. split; [exact E6|]. split; discriminate.
    + exists (p_at 732502 9), HOUR. split; [exact E3|]. split; [unfold occurs; now rewrite E1|]. unfold HOUR. lia.
Qed.
Lemma bz_still_free : free_run 5 (bz_run (bz_now []) (repeat (bz_now [], bz_now [], bz_now []) 7)) bz_from bz_to (8 * HOUR) (17 * HOUR) None = Ok [bz_at 8 9; bz_at 10 17]
  /\ (limit (busy_query 5 bz_from bz_to ann) (bz_now []) < 30)%nat.
Proof. split; [vm_compute; reflexivity|vm_compute; lia]. Qed.
Example C171_still_case : let s0 := bz_now [] in let k := bz_run s0 (repeat (s0, s0, s0) 7) in
  still s0 k /\ (limit (busy_query 5 bz_from bz_to ann) s0 < 30)%nat
  /\ free_run 5 k bz_from bz_to (8 * HOUR) (17 * HOUR) None = Ok [bz_at 8 9; bz_at 10 17].
Proof.
  cbv zeta. destruct bz_still_free as [H1 H2]. split; [|split; [exact H2|exact H1]]. clear H1 H2. generalize (bz_now []). intros no.
  intros a p I. assert (P : p = mkPass (repeat no 30) (repeat (no, no, no) 7)) by (destruct I as [I|[]]; now inversion I). clear I. subst p.
  split; [exists no, (repeat no 29); split; reflexivity|].
  intros s r S _. f_equal. unfold pass_seen in S. cbn [ps_look ps_tell] in S. apply in_app_iff in S. destruct S as [S|S]; [now apply repeat_spec in S|].
  apply in_flat_map in S as (w & W & S). apply repeat_spec in W. subst w. cbn in S. intuition.
Qed.
