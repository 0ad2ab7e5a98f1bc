(** Property theorems C28 and C57: exactly what getFreePeriods answers. *)
From Verif Require Import Base PyDate DateFacts Recurrent SpecRecur RecurProofs RecurMisc Util UtilProofs
  CalTime TimeProofs Event Storage QueryProofs BlockProofs PropQuery.
From Coq Require Import ZifyBool Sorting.Sorted Sorting.Permutation.
Ltac Zify.zify_post_hook ::= Z.div_mod_to_equations.
Local Opaque ord2ymd year_of month_of day_of ymd2ord days_in_month is_leap.

(** * C28 *)
(** the midnight at which the day of [t] begins, and the first midnight that is
    not before [t] *)
Definition midnight_before (t : Z) : Z := t / DAY * DAY.
Definition midnight_after (t : Z) : Z := (t + DAY - 1) / DAY * DAY.

(** the proper free periods that are found: they lie in the whole days the asked
    period touches, within the window, and avoid what the attendees do inside the
    asked period *)
Definition free_of_days (evs : list event) (atts : list attendee) (begins ends tb te : Z) (G : list (Z * Z)) : Prop :=
  Forall (fun x => fst x < snd x) G /\ ordered G
  /\ forall t, (exists s e, In (s, e) G /\ s <= t < e) <->
       midnight_before begins <= t < midnight_after ends
       /\ ~ (t mod DAY < tb \/ te <= t mod DAY)
       /\ ~ (begins <= t < ends /\ busy evs atts t).

(** besides these there is a period that ends before it starts, at the front when
    the window opens at midnight and the asked period does not, and at the back
    when the asked period does not end at midnight *)
Definition front_artefact (begins tb : Z) : list (Z * Z) :=
  if (tb =? 0) && negb (begins mod DAY =? 0) then [(begins, midnight_before begins)] else [].
Definition back_artefact (ends te : Z) : list (Z * Z) :=
  if ends mod DAY =? 0 then [] else [(midnight_after ends, Z.min ends (midnight_before ends + te))].

Lemma filter_true {A} (l : list A) : filter (fun _ => true) l = l.
Proof. induction l as [|x q IH]; [reflexivity|]. cbn. now rewrite IH. Qed.

Lemma free_shape F evs atts begins ends tb te l : evs_ok evs -> dt_ok begins = true -> dt_ok ends = true ->
  begins < ends -> window_ok tb te ->
  get_free F evs atts begins ends tb te None = Ok l ->
  exists s1 e1 r, get_blocked F evs atts begins ends tb te = Ok ((s1, e1) :: r)
    /\ l = front_artefact begins tb ++ gaps e1 r ++ back_artefact ends te
    /\ s1 = midnight_before begins
    /\ last (map snd r) e1 = midnight_after ends.
Proof.
  intros OK OB OE BE W E. unfold get_free in E.
  destruct (get_blocked F evs atts begins ends tb te) as [bl| |] eqn:BL; try discriminate. cbn [rbind] in E.
  destruct (get_blocked_form _ _ _ _ _ _ _ _ OK OB OE W BL) as [G WF].
  destruct (blocked_shape _ _ _ _ _ _ _ _ OK OB OE BE W BL) as (e1 & r & -> & H1 & H2 & H3).
  exists (combine (dt_date begins) 0), e1, r. split; [reflexivity|]. destruct W as [W1 W2].
  assert (LAST : last (map snd r) e1 = midnight_after ends).
  { rewrite H3. unfold midnight_after, combine, dt_date, DAY in *. lia. }
  split; [|split; [unfold midnight_before, combine, dt_date, DAY; lia|exact LAST]].
  cbn [free_loop long_enough] in E. rewrite (free_loop_eq tb None _ r _ e1 G H2) in E. cbv zeta in E.
  rewrite LAST in E. cbn [long_enough] in E. rewrite filter_true in E. injection E as <-. f_equal; [|f_equal].
  - unfold front_artefact, midnight_before.
    set (b' := if begins <? combine (dt_date begins) tb then combine (dt_date begins) tb else begins).
    assert (B' : b' = Z.max begins (combine (dt_date begins) tb)).
    { unfold b'. destruct (begins <? combine (dt_date begins) tb) eqn:Q; lia. }
    clearbody b'. subst b'.
    destruct (tb =? 0) eqn:T0.
    + assert (tb = 0) by lia. subst tb.
      replace (Z.max begins (combine (dt_date begins) 0)) with begins by (unfold combine, dt_date, DAY; lia).
      replace (0 <=? dt_time (combine (dt_date begins) 0)) with true by (unfold combine, dt_time, dt_date, DAY; lia).
      replace (combine (dt_date begins) 0) with (begins / DAY * DAY) by (unfold combine, dt_date, DAY; lia).
      replace (begins =? begins / DAY * DAY) with (begins mod DAY =? 0) by (unfold DAY; lia).
      cbn [andb]. rewrite andb_true_r. reflexivity.
    + replace (tb <=? dt_time (combine (dt_date begins) 0)) with false by (unfold combine, dt_time, dt_date, DAY; lia).
      reflexivity.
  - unfold back_artefact, midnight_before.
    set (e' := if combine (dt_date ends) te <? ends then combine (dt_date ends) te else ends).
    assert (E' : e' = Z.min ends (ends / DAY * DAY + te)).
    { unfold e', combine, dt_date. destruct (ends / DAY * DAY + te <? ends) eqn:Q; lia. }
    rewrite E'. rewrite andb_true_r. unfold midnight_after.
    destruct (ends mod DAY =? 0) eqn:Z0.
    + replace ((ends + DAY - 1) / DAY * DAY =? Z.min ends (ends / DAY * DAY + te)) with true by (unfold DAY in *; lia). reflexivity.
    + replace ((ends + DAY - 1) / DAY * DAY =? Z.min ends (ends / DAY * DAY + te)) with false by (unfold DAY in *; lia). reflexivity.
Qed.

(** instants of the touched days outside the asked period are blocked at night only *)
Lemma blocked_everywhere F evs atts begins ends tb te l : evs_ok evs -> dt_ok begins = true -> dt_ok ends = true ->
  window_ok tb te -> get_blocked F evs atts begins ends tb te = Ok l ->
  forall t, midnight_before begins <= t < midnight_after ends ->
  (covers l t <-> outside tb te t \/ (begins <= t < ends /\ busy evs atts t)).
Proof.
  intros OK OB OE W E t T.
  assert (D : begins <= t < ends \/ ~ begins <= t < ends) by lia. destruct D as [D|D].
  - rewrite (get_blocked_exact _ _ _ _ _ _ _ _ OK OB OE W E t D). tauto.
  - destruct (get_blocked_inv _ _ _ _ _ _ _ _ OK OB OE W E) as (bl & nb & -> & BL & _ & N).
    rewrite remove_overlaps_covers, covers_app, dedup_covers.
    rewrite (night_covers nb tb te (dt_date begins) (dt_date (ends + DAY - 1) - 1) t W).
    2:{ intros x. rewrite N. split; intros (k & K1 & K2); exists k; (split; [lia|exact K2]). }
    assert (dt_date begins <= dt_date t <= dt_date (ends + DAY - 1) - 1) by (unfold midnight_before, midnight_after, dt_date, DAY in *; lia).
    assert (NC : ~ covers bl t).
    { intros (s & e & HH & ST). destruct (BL _ HH) as (s0 & e0 & X & B1 & B2 & _). unfold clipped in X. injection X as -> ->. lia. }
    tauto.
Qed.

Theorem C28_free_exact : forall F evs atts begins ends tb te l,
  evs_ok evs -> dt_ok begins = true -> dt_ok ends = true -> begins < ends -> 0 <= tb < DAY /\ 0 <= te < DAY ->
  get_free F evs atts begins ends tb te None = Ok l ->
  exists G, l = front_artefact begins tb ++ G ++ back_artefact ends te
    /\ free_of_days evs atts begins ends tb te G.
Proof.
  intros F evs atts begins ends tb te l OK OB OE BE W E.
  destruct (free_shape _ _ _ _ _ _ _ _ OK OB OE BE W E) as (s1 & e1 & r & BL & EQ & S1 & LAST).
  exists (gaps e1 r). split; [exact EQ|].
  destruct (get_blocked_form _ _ _ _ _ _ _ _ OK OB OE W BL) as [G WF].
  destruct (gaps_spec r s1 e1 G WF) as (I1 & _ & I3 & I4).
  split; [exact I1|]. split; [apply gaps_ordered; now inversion WF|].
  intros t. change (exists s e, In (s, e) (gaps e1 r) /\ s <= t < e) with (covers (gaps e1 r) t).
  rewrite I4. change (t mod DAY < tb \/ te <= t mod DAY) with (outside tb te t).
  assert (WF1 : s1 <= e1) by (inversion WF as [|? ? X _]; subst; exact X).
  pose proof (blocked_everywhere _ _ _ _ _ _ _ _ OK OB OE W BL t) as EX. rewrite covers_cons in EX.
  split.
  - intros (T1 & (y & Y1 & Y2) & NC).
    pose proof (gapped_last r _ _ G WF y Y1) as Q. rewrite LAST in Q.
    assert (WY : wf y) by (rewrite Forall_forall in WF; auto). unfold wf in WY.
    assert (T : midnight_before begins <= t < midnight_after ends) by lia.
    split; [exact T|]. specialize (EX T). assert (~ (s1 <= t < e1)) by lia. tauto.
  - intros (T & NO & NB). specialize (EX T).
    assert (NC : ~ covers r t) by tauto. assert (T1 : e1 <= t) by (assert (~ (s1 <= t < e1)) by tauto; lia).
    split; [exact T1|]. split; [|exact NC].
    destruct (last_snd_in r s1 e1) as [s' HS]. rewrite LAST in HS. exists (s', midnight_after ends). split; [exact HS|]. cbn [fst].
    destruct HS as [HS|HS]; [injection HS as HS1 HS2; lia|].
    destruct (Z_lt_le_dec t s') as [L|L]; [exact L|exfalso]. apply NC. exists s', (midnight_after ends). split; [exact HS|lia].
Qed.
Print Assumptions C28_free_exact.

(** the claim of C28, and exactly when a query keeps it *)
Definition keeps_C28 (evs : list event) (atts : list attendee) (begins ends tb te : Z) (l : list (Z * Z)) : Prop :=
  Forall (fun x => fst x < snd x) l /\ ordered l
  /\ (forall x, In x l -> begins <= fst x /\ snd x <= ends)
  /\ (forall t, (exists s e, In (s, e) l /\ s <= t < e) <->
        begins <= t < ends /\ ~ (t mod DAY < tb \/ te <= t mod DAY) /\ ~ busy evs atts t).

Theorem C28_kept_iff : forall F evs atts begins ends tb te l,
  evs_ok evs -> dt_ok begins = true -> dt_ok ends = true -> begins < ends -> 0 <= tb < DAY /\ 0 <= te < DAY ->
  get_free F evs atts begins ends tb te None = Ok l ->
  (keeps_C28 evs atts begins ends tb te l <->
   ends mod DAY = 0 /\ (begins mod DAY <= tb \/ (te <= tb /\ 0 < tb))).
Proof.
  intros F evs atts begins ends tb te l OK OB OE BE W E.
  destruct (C28_free_exact _ _ _ _ _ _ _ _ OK OB OE BE W E) as (G & -> & G1 & G2 & G3). destruct W as [W1 W2].
  unfold front_artefact, back_artefact. split.
  - intros (K1 & K2 & K3 & K4). rewrite Forall_forall in K1.
    destruct (ends mod DAY =? 0) eqn:Z0.
    2:{ exfalso. specialize (K1 (midnight_after ends, Z.min ends (midnight_before ends + te))).
        cbn [fst snd] in K1. unfold midnight_after, midnight_before, DAY in *.
        assert (X : (ends + 86400000000 - 1) / 86400000000 * 86400000000 < Z.min ends (ends / 86400000000 * 86400000000 + te)); [|lia].
        apply K1. apply in_app_iff. right. apply in_app_iff. right. now left. }
    split; [lia|]. destruct (Z_le_gt_dec (begins mod DAY) tb) as [L|L]; [now left|right].
    destruct (Z_le_gt_dec te tb) as [LE|NE].
    + split; [exact LE|]. destruct (Z.eq_dec tb 0) as [->|]; [exfalso|lia].
      replace (begins mod DAY =? 0) with false in K1 by lia. cbn in K1.
      specialize (K1 (begins, midnight_before begins) (or_introl eq_refl)). cbn in K1. unfold midnight_before, DAY in *. lia.
    + exfalso.
      assert (C : exists s e, In (s, e) G /\ s <= midnight_before begins + tb < e).
      { apply G3. split; [unfold midnight_before, midnight_after, DAY in *; lia|]. split.
        - unfold midnight_before, DAY in *. lia.
        - unfold midnight_before, DAY in *. lia. }
      destruct C as (s & e & H & T). destruct (K3 (s, e)) as [X _].
      { apply in_app_iff. right. apply in_app_iff. now left. }
      cbn [fst] in X. unfold midnight_before, DAY in *. lia.
  - intros [Z0 C]. replace (ends mod DAY =? 0) with true by lia. rewrite app_nil_r.
    assert (FR : (tb =? 0) && negb (begins mod DAY =? 0) = false) by (pose proof (Z.mod_pos_bound begins DAY ltac:(unfold DAY; lia)); lia).
    rewrite FR. cbn [app].
    assert (MA : midnight_after ends = ends) by (unfold midnight_after, DAY in *; lia).
    assert (EX : forall t, covers G t <-> begins <= t < ends /\ ~ (t mod DAY < tb \/ te <= t mod DAY) /\ ~ busy evs atts t).
    { intros t. unfold covers. rewrite G3, MA. split.
      - intros (T1 & T2 & T3). assert (T : begins <= t < ends); [|tauto].
        split; [|lia]. unfold midnight_before, DAY in *. lia.
      - intros (T1 & T2 & T3). split; [unfold midnight_before, DAY in *; lia|]. tauto. }
    split; [exact G1|]. split; [exact G2|]. split; [|exact EX].
    intros [s e] H. rewrite Forall_forall in G1. specialize (G1 _ H). cbn [fst snd] in *.
    assert (C1 : covers G s) by (exists s, e; split; [exact H|lia]).
    assert (C2 : covers G (e - 1)) by (exists s, e; split; [exact H|lia]).
    apply EX in C1, C2. lia.
Qed.
Print Assumptions C28_kept_iff.

(** asked from a Monday 14:00 to the Tuesday after at 12:00: the Monday morning is
    offered, Tuesday's afternoon too, and a period that runs backwards; asked with
    a window from midnight on, another one *)
Example C28_exact_case :
  get_free 50 store [alice; bob] (at_ 0 11) (at_ 1 12) (9 * HOUR) (17 * HOUR) None
    = Ok [(at_ 0 9, at_ 0 11); (at_ 0 12, at_ 0 16); (at_ 1 9, at_ 1 17); (at_ 2 0, at_ 1 12)]
  /\ back_artefact (at_ 1 12) (17 * HOUR) = [(at_ 2 0, at_ 1 12)]
  /\ get_free 50 store [bob] (at_ 0 14) (at_ 1 0) 0 (17 * HOUR) None
    = Ok [(at_ 0 14, at_ 0 0); (at_ 0 0, at_ 0 16)]
  /\ front_artefact (at_ 0 14) 0 = [(at_ 0 14, at_ 0 0)].
Proof. vm_compute. intuition congruence. Qed.

(** * C57 *)
Lemma gap_ends (r : list (Z * Z)) : forall e1 a t, In (a, t) (gaps e1 r) -> exists e, In (t, e) r.
Proof.
  induction r as [|[s e] r IH]; intros e1 a t; cbn [gaps]; [intros []|]. intros [H|H].
  - injection H as <- <-. exists e. now left.
  - destruct (IH _ _ _ H) as [e' H']. exists e'. now right.
Qed.

Lemma gap_starts (r : list (Z * Z)) : forall e1 t b, In (t, b) (gaps e1 r) -> t = e1 \/ exists s, In (s, t) r.
Proof.
  induction r as [|[s e] r IH]; intros e1 t b; cbn [gaps]; [intros []|]. intros [H|H].
  - injection H as <- <-. now left.
  - right. destruct (IH _ _ _ H) as [->|[s' H']]; [exists s; now left|exists s'; now right].
Qed.

Lemma gap_avoids (r : list (Z * Z)) : forall s1 e1, gapped ((s1, e1) :: r) -> Forall wf ((s1, e1) :: r) ->
  forall x y, In x (gaps e1 r) -> In y r -> snd y <= fst x \/ snd x <= fst y.
Proof.
  induction r as [|[s e] r IH]; intros s1 e1 G W x y Hx Hy; [destruct Hy|]. cbn [gaps] in Hx.
  cbn [gapped] in G. destruct G as [_ G2]. inversion W as [|? ? _ W2]; subst.
  pose proof (gapped_lower r _ G2 W2) as LOW. rewrite Forall_forall in LOW. cbn [snd] in LOW.
  destruct Hx as [<-|Hx].
  - right. destruct Hy as [<-|Hy]; [cbn; lia|]. specialize (LOW _ Hy). cbn.
    inversion W2 as [|? ? W3 _]; subst. unfold wf in W3. cbn in W3. lia.
  - destruct Hy as [<-|Hy]; [|exact (IH s e G2 W2 x y Hx Hy)].
    left. cbn. destruct (gaps_spec r s e G2 W2) as (_ & _ & I3 & _). exact (I3 x Hx).
Qed.

(** a block is inside one of the merged blocks *)
Lemma merge_keeps (l : list (Z * Z)) : forall ls le, StronglySorted ple l -> Forall (fun x => ls <= fst x) l ->
  (exists e, In (ls, e) (merge_from (ls, le) l) /\ le <= e)
  /\ forall a b, In (a, b) l -> exists s e, In (s, e) (merge_from (ls, le) l) /\ s <= a /\ b <= e.
Proof.
  induction l as [|[s e] l IH]; intros ls le S F; cbn [merge_from].
  - split; [exists le; split; [now left|lia]|]. intros a b [].
  - inversion S as [|? ? S' FS]; subst. inversion F as [|? ? F1 F2]; subst. cbn [fst] in F1.
    assert (F3 : Forall (fun x => s <= fst x) l).
    { rewrite Forall_forall in *. intros x Hx. specialize (FS x Hx). unfold ple in FS. cbn in FS. lia. }
    destruct (s <=? le) eqn:E1; [destruct (e <=? le) eqn:E2|].
    + destruct (IH ls le S' F2) as [(q & Q1 & Q2) R]. split; [exists q; auto|].
      intros a b [X|H]; [|now apply R]. injection X as <- <-. exists ls, q. split; [exact Q1|]. lia.
    + destruct (IH ls e S' F2) as [(q & Q1 & Q2) R]. split; [exists q; split; [exact Q1|lia]|].
      intros a b [X|H]; [|now apply R]. injection X as <- <-. exists ls, q. split; [exact Q1|]. lia.
    + destruct (IH s e S' F3) as [(q & Q1 & Q2) R]. split; [exists le; split; [now left|lia]|].
      intros a b [X|H].
      * injection X as <- <-. exists s, q. split; [now right|]. lia.
      * destruct (R a b H) as (s' & e' & H1 & H2). exists s', e'. split; [now right|exact H2].
Qed.

Lemma remove_overlaps_keeps l a b : In (a, b) l -> exists s e, In (s, e) (remove_overlaps l) /\ s <= a /\ b <= e.
Proof.
  intros H. unfold remove_overlaps. pose proof (sort_perm l) as P. pose proof (sort_sorted l) as S.
  assert (H' : In (a, b) (sort_pairs l)) by (eapply Permutation_in; [symmetry; exact P|exact H]).
  destruct (sort_pairs l) as [|[s e] r]; [destruct H'|]. inversion S as [|? ? S' FS]; subst.
  assert (F : Forall (fun x => s <= fst x) r).
  { rewrite Forall_forall in *. intros x Hx. specialize (FS x Hx). unfold ple in FS. cbn in FS. lia. }
  destruct (merge_keeps r s e S' F) as [(q & Q1 & Q2) R].
  destruct H' as [X|H']; [injection X as <- <-; exists s, q; split; [exact Q1|lia]|now apply R].
Qed.

(** an attendee's event of no length starts at [t] *)
Definition reminder_at (evs : list event) (atts : list attendee) (t : Z) : Prop :=
  exists i e, In (Some i) atts /\ In e evs /\ takes_time e i /\ e_duration e = Some 0 /\ occurs e t.

Lemma segmented_zero_iff F evs b pe c out : evs_ok evs -> dt_ok pe = true ->
  get_occurrences_segmented F evs (Some b, Some pe) c = Ok out ->
  (forall o, In o out -> o_duration o = Some 0 -> dt_time (o_dtstart o) = 0
     \/ (e_duration (o_original o) = Some 0 /\ occurs (o_original o) (o_dtstart o) /\ b < o_dtstart o < pe))
  /\ (forall e t, In e evs -> satisfies (the_criteria c) e -> e_duration e = Some 0 -> occurs e t -> b < t < pe ->
       In (mkOcc t (Some 0) e) out).
Proof.
  intros OK OE E. unfold get_occurrences_segmented in E.
  destruct (get_occurrences F evs (Some b, Some pe) c) as [l| |] eqn:G; try discriminate. cbn [rbind assert_bounded] in E.
  split.
  - intros o Ho Z0. apply (segments_in _ _ _ _ E) in Ho as (occ & segs & H1 & H2 & H3).
    apply (get_occurrences_in _ _ _ _ _ _ OK G) in H1 as (e & t0 & d & K1 & _ & K3 & -> & K4 & _).
    assert (D0 : 0 <= d) by (destruct (OK e K1) as [(_ & d' & D' & D0 & _) _]; congruence).
    destruct (segment_one_props b pe (mkOcc t0 (Some d) e) segs d OE eq_refl D0 H2) as (_ & P2 & _).
    destruct (P2 o H3) as (Q & d' & Q1 & Q2 & _ & _ & _ & _ & _ & Q8).
    rewrite Z0 in Q1. injection Q1 as <-. destruct (Q8 eq_refl) as (R1 & R2 & [->|R3]); cbn [o_dtstart] in *.
    + right. rewrite Q. cbn [o_original]. split; [exact K3|]. rewrite R1. replace (t0 + 0) with t0 in * by lia. auto.
    + left. congruence.
  - intros e t H1 H2 D OC T.
    assert (IN : In (mkOcc t (Some 0) e) l).
    { apply (get_occurrences_in _ _ _ _ _ _ OK G). exists e, t, 0. split; [exact H1|]. split; [exact H2|].
      split; [exact D|]. split; [reflexivity|]. split; [exact OC|]. lia. }
    destruct (rconcat_all _ _ _ E _ IN) as [segs S]. apply (segments_in _ _ _ _ E).
    exists (mkOcc t (Some 0) e), segs. split; [exact IN|]. split; [exact S|].
    apply segment_one_eq in S; [|exact OE]. destruct S as (d & X & _ & ->). injection X as <-. cbn [o_dtstart o_original].
    assert (P : seg_pieces b pe t (t + 0) = [(t, t)]).
    { unfold seg_pieces. replace (Z.max t b) with t by lia. replace (Z.min (t + 0) pe) with t by lia.
      destruct (midnights (dt_date t + 1) (dt_date t)) as [|m q] eqn:M; [reflexivity|].
      exfalso. unfold midnights in M. rewrite days_nil in M by lia. discriminate. }
    change (In (mkOcc t (Some 0) e) (map (piece_occ e) (filter (piece_in b pe) (rev (seg_pieces b pe t (t + 0)))))). rewrite P. cbn [rev app filter]. unfold piece_in. cbn [fst snd]. replace ((b <? t) && (t <? pe)) with true by lia.
    left. unfold piece_occ. cbn. now rewrite Z.sub_diag.
Qed.

(** the blocks an attendee's occurrences make, and those of no length *)
Lemma blocked_zero F evs atts begins ends tb te l : evs_ok evs -> dt_ok begins = true -> dt_ok ends = true ->
  window_ok tb te -> get_blocked F evs atts begins ends tb te = Ok l ->
  exists bl nb,
    l = remove_overlaps (dedup_pairs bl ++ nb)
    /\ (forall x, In x bl -> exists s e, x = clipped tb te s e /\ begins <= s /\ s <= e <= ends /\ s < ends
          /\ (s < e -> e <= (dt_date s + 1) * DAY)
          /\ (s < e \/ dt_time s = 0 \/ (s = e /\ begins < s < ends /\ reminder_at evs atts s)))
    /\ (forall t, begins < t < ends -> reminder_at evs atts t -> In (clipped tb te t t) bl)
    /\ (forall x, In x nb <-> exists k, dt_date begins <= k < dt_date (ends + DAY - 1)
          /\ (x = (combine k 0, combine k tb) \/ x = (combine k te, combine (k + 1) 0))).
Proof.
  intros OK OB OE W E0. pose proof E0 as E. unfold get_blocked in E.
  destruct (rconcat_map _ atts) as [bl| |] eqn:BL; try discriminate. cbn [rbind] in E.
  assert (ED : (if dt_time ends =? 0 then date_add (dt_date ends) (-1) else Ok (dt_date ends))
      = Ok (dt_date (ends + DAY - 1) - 1)).
  { unfold date_add. destruct (dt_time ends =? 0) eqn:TZ.
    - destruct ((1 <=? dt_date ends + -1) && (dt_date ends + -1 <=? MAXORD)) eqn:R.
      + f_equal. unfold dt_date, dt_time, DAY in *. lia.
      + exfalso. unfold date_add in E. rewrite R in E. discriminate.
    - f_equal. unfold dt_date, dt_time, DAY in *. lia. }
  rewrite ED in E. cbn [rbind] in E.
  set (K := dt_date (ends + DAY - 1)) in *.
  destruct (night_blocks _ tb te (dt_date begins) (K - 1)) as [nb| |] eqn:NB; try discriminate.
  cbn [rbind] in E. injection E as <-. exists bl, nb. split; [reflexivity|].
  assert (NBS := night_in _ _ _ _ _ _ NB ltac:(unfold night_fuel; lia)).
  split; [|split].
  - intros x Hx. apply (rconcat_in _ _ _ BL) in Hx as (a & ya & A1 & A2 & A3).
    destruct (get_occurrences_segmented F evs (Some begins, Some ends) (att_criteria a)) as [occs| |] eqn:G;
      unfold att_criteria in G; rewrite G in A2; try discriminate. cbn [rbind] in A2.
    apply (rconcat_in _ _ _ A2) in A3 as (o & yo & O1 & O2 & O3).
    destruct (segmented_within _ _ _ _ _ _ OK OE G o O1) as (d & D1 & D2 & D3 & D4 & D5 & D6 & D & D7 & D8).
    destruct (segmented_zero_iff _ _ _ _ _ _ OK OE G) as [SZ _].
    destruct a as [i|].
    2:{ exfalso. destruct D4 as (_ & _ & D4). destruct (D4 _ eq_refl) as (j & st & [J|[]] & _). discriminate. }
    apply att_satisfies in D4.
    apply (blocked_of_spec _ _ _ _ _ _ _ _ W D1 D2 D5 D4 O2) in O3 as (TT & L & ->).
    exists (o_dtstart o), (o_dtstart o + d). split; [reflexivity|]. split; [exact D5|]. split; [lia|]. split; [exact L|].
    split; [intros P; unfold dt_date, DAY in *; lia|].
    destruct (Z.eq_dec d 0) as [->|NZ]; [right|left; lia].
    destruct (SZ o O1 D1) as [Z0|(Z1 & Z2 & Z3)]; [now left|right].
    split; [lia|]. split; [exact Z3|]. exists i, (o_original o). auto.
  - intros t T (i & e & I1 & I2 & TT & D & OC).
    destruct (rconcat_all _ _ _ BL (Some i) I1) as [ya Y].
    destruct (get_occurrences_segmented F evs (Some begins, Some ends) (att_criteria (Some i))) as [occs| |] eqn:G;
      unfold att_criteria in G; rewrite G in Y; try discriminate. cbn [rbind] in Y.
    destruct (segmented_zero_iff _ _ _ _ _ _ OK OE G) as [_ SZ].
    assert (AT : exists st, attends e i st) by (destruct TT as (_ & _ & st & A & _); eauto).
    assert (IN : In (mkOcc t (Some 0) e) occs) by (apply SZ; auto; now apply (att_satisfies i e)).
    destruct (rconcat_all _ _ _ Y _ IN) as [yo YO].
    apply (rconcat_in _ _ _ BL). exists (Some i), ya. split; [exact I1|]. split.
    + rewrite G. cbn [rbind]. exact Y.
    + apply (rconcat_in _ _ _ Y). exists (mkOcc t (Some 0) e), yo. split; [exact IN|]. split; [exact YO|].
      apply (blocked_of_spec i begins ends tb te (mkOcc t (Some 0) e) 0 yo W eq_refl ltac:(lia) ltac:(cbn; lia) AT YO).
      cbn [o_original o_dtstart]. split; [exact TT|]. split; [lia|]. now replace (t + 0) with t by lia.
  - intros x. rewrite NBS. split; intros (k & K1 & K2); exists k; (split; [lia|exact K2]).
Qed.

(** where two of the free periods touch *)
Theorem C57_touch_iff : forall F evs atts begins ends tb te l,
  evs_ok evs -> dt_ok begins = true -> dt_ok ends = true -> begins < ends -> 0 <= tb < DAY /\ 0 <= te < DAY ->
  get_free F evs atts begins ends tb te None = Ok l ->
  exists G, l = front_artefact begins tb ++ G ++ back_artefact ends te
    /\ free_of_days evs atts begins ends tb te G
    /\ forall t, (exists a b, In (a, t) G /\ In (t, b) G) <->
         (exists s e, In (s, e) G /\ s <= t - 1 < e) /\ (exists s e, In (s, e) G /\ s <= t < e)
         /\ begins < t < ends /\ reminder_at evs atts t.
Proof.
  intros F evs atts begins ends tb te l OK OB OE BE W E.
  destruct (free_shape _ _ _ _ _ _ _ _ OK OB OE BE W E) as (s1 & e1 & r & BL & EQ & S1 & LAST).
  destruct (C28_free_exact _ _ _ _ _ _ _ _ OK OB OE BE W E) as (G0 & EQ0 & FD).
  assert (X : G0 = gaps e1 r).
  { rewrite EQ in EQ0. apply app_inv_head, app_inv_tail in EQ0. now symmetry. }
  subst G0. exists (gaps e1 r). split; [exact EQ|]. split; [exact FD|]. intros t.
  destruct (get_blocked_form _ _ _ _ _ _ _ _ OK OB OE W BL) as [G WF].
  destruct (blocked_zero _ _ _ _ _ _ _ _ OK OB OE W BL) as (bl & nb & EQB & B & BZ & N).
  destruct (gaps_spec r s1 e1 G WF) as (I1 & _ & I3 & I4).
  change (exists s e, In (s, e) (gaps e1 r) /\ s <= t - 1 < e) with (covers (gaps e1 r) (t - 1)).
  change (exists s e, In (s, e) (gaps e1 r) /\ s <= t < e) with (covers (gaps e1 r) t).
  assert (IN1 : forall x, In x (gaps e1 r) -> fst x < snd x) by (rewrite Forall_forall in I1; exact I1).
  destruct W as [W1 W2]. split.
  - intros (a & b & HA & HB).
    assert (CA : covers (gaps e1 r) (t - 1)) by (exists a, t; split; [exact HA|]; specialize (IN1 _ HA); cbn in IN1; lia).
    assert (CB : covers (gaps e1 r) t) by (exists t, b; split; [exact HB|]; specialize (IN1 _ HB); cbn in IN1; lia).
    split; [exact CA|]. split; [exact CB|].
    destruct (gap_ends _ _ _ _ HA) as [e HE].
    pose proof (gapped_lower r _ G WF) as LOW. rewrite Forall_forall in LOW. cbn [snd] in LOW.
    assert (Z0 : In (t, t) r).
    { destruct (gap_starts _ _ _ _ HB) as [->|[s HS]]; [specialize (LOW _ HE); cbn in LOW; lia|].
      destruct (Z_lt_le_dec s t) as [L|L].
      - pose proof (gapped_sep _ G WF (s, t) (t, e) (or_intror HS) (or_intror HE)) as Q. cbn in Q. lia.
      - assert (WS : s <= t) by (rewrite Forall_forall in WF; apply (WF (s, t)); now right).
        assert (s = t) by lia. subst s. exact HS. }
    pose proof (proj1 (I4 _) CA) as (CA1 & _ & CA2). pose proof (proj1 (I4 _) CB) as (CB1 & _ & CB2).
    assert (NCOV : ~ covers ((s1, e1) :: r) t) by (rewrite covers_cons; intros [C|C]; [lia|contradiction]).
    assert (NPREV : ~ covers ((s1, e1) :: r) (t - 1)) by (rewrite covers_cons; intros [C|C]; [lia|contradiction]).
    assert (FIRST : s1 < t).
    { inversion WF as [|? ? WF1 _]; subst. unfold wf in WF1. cbn in WF1. lia. }
    assert (IN : In (t, t) (remove_overlaps (dedup_pairs bl ++ nb))) by (rewrite <- EQB; now right).
    apply remove_overlaps_parts in IN as [[e' IN] _]. rewrite EQB, remove_overlaps_covers in NCOV, NPREV.
    assert (COV : forall u a' b', In (a', b') nb -> a' <= u < b' -> covers (dedup_pairs bl ++ nb) u).
    { intros u a' b' AB T. apply covers_app. right. exists a', b'. auto. }
    set (D0 := dt_date begins) in *. set (K := dt_date (ends + DAY - 1)) in *.
    assert (S1' : s1 = combine D0 0) by (rewrite S1; unfold midnight_before, D0, combine, dt_date, DAY; lia).
    assert (MID : forall k, D0 < k -> k <= K -> t <> combine k 0).
    { intros k Hk Hk' ->. apply NPREV. apply (COV _ (combine (k - 1) te) (combine (k - 1 + 1) 0)).
      - apply N. exists (k - 1). split; [lia|auto].
      - unfold combine, DAY in *. lia. }
    apply in_app_iff in IN as [IN|IN].
    + apply (proj1 (dedup_in _ _)) in IN. destruct (B _ IN) as (s0 & e0 & X & B1 & B2 & B3 & B4 & B5).
      unfold clipped in X. injection X as X1 X2.
      set (D := dt_date s0) in *.
      assert (DR : D0 <= D < K) by (subst D D0 K; unfold dt_date, DAY in *; lia).
      destruct (Z_lt_le_dec s0 (combine D tb)) as [C|C].
      * rewrite Z.max_r in X1 by lia. exfalso. destruct (Z.eq_dec tb 0) as [->|NZ].
        -- subst D. unfold combine, dt_date, DAY in *. lia.
        -- apply NPREV. apply (COV _ (combine D 0) (combine D tb)).
           ++ apply N. exists D. split; [lia|auto].
           ++ unfold combine, DAY in *. lia.
      * rewrite Z.max_l in X1 by lia. subst s0.
        destruct (Z_lt_le_dec t (combine D te)) as [C2|C2].
        -- destruct B5 as [B5|[B5|(_ & B6 & B7)]]; [| |auto].
           ++ exfalso. apply NCOV. apply covers_app. left. apply dedup_covers. eexists. eexists. split; [exact IN|]. lia.
           ++ exfalso. apply (MID D); [|lia|]; subst D; unfold combine, dt_date, dt_time, DAY in *; lia.
        -- exfalso. apply NCOV. apply (COV _ (combine D te) (combine (D + 1) 0)).
           ++ apply N. exists D. split; [lia|auto].
           ++ subst D. unfold combine, dt_date, DAY in *. lia.
    + exfalso. pose proof IN as IN0. apply N in IN as (k & Hk & [X|X]); injection X as -> ->.
      * destruct (Z.eq_dec k D0) as [->|NK]; [lia|]. apply (MID k); [lia|lia|reflexivity].
      * apply NCOV. apply (COV _ _ _ IN0). unfold combine, DAY in *. lia.
  - intros (CA & CB & T & R).
    pose proof (proj1 (I4 _) CA) as (CA1 & _ & CA2). pose proof (proj1 (I4 _) CB) as (CB1 & _ & CB2).
    destruct FD as (_ & _ & FD).
    destruct (proj1 (FD t) CB) as (_ & NO & _).
    assert (CL : clipped tb te t t = (t, t)).
    { unfold clipped. unfold combine, dt_date, DAY in *. f_equal; lia. }
    specialize (BZ t T R). rewrite CL in BZ.
    assert (IN : In (t, t) (dedup_pairs bl ++ nb)) by (apply in_app_iff; left; now apply dedup_in).
    destruct (remove_overlaps_keeps _ _ _ IN) as (s & e & H & H1 & H2). rewrite <- EQB in H.
    assert (WH : s <= e) by lia.
    destruct H as [H|H]; [injection H as <- <-; lia|].
    assert (s = t).
    { destruct (Z_lt_le_dec s t) as [L|L]; [exfalso; apply CA2; exists s, e; split; [exact H|lia]|lia]. }
    assert (e = t).
    { destruct (Z_lt_le_dec t e) as [L|L]; [exfalso; apply CB2; exists s, e; split; [exact H|lia]|lia]. }
    subst s e.
    destruct CA as (a & b & HA & TA). destruct CB as (a' & b' & HB & TB).
    pose proof (gap_avoids r s1 e1 G WF _ _ HA H) as AA. pose proof (gap_avoids r s1 e1 G WF _ _ HB H) as AB.
    cbn [fst snd] in *. assert (b = t) by lia. assert (a' = t) by lia. subst b a'. exists a, b'. auto.
Qed.
Print Assumptions C57_touch_iff.

(** a reminder at noon of a day that is free from 9:00 to 17:00 *)
Example C57_touch_case :
  let r := q_event "z" (at_ 0 12) 0 None "CONFIRMED" false [("alice", "ACCEPTED")]%string in
  get_free 50 [r] [alice] (at_ 0 8) (at_ 0 20) (9 * HOUR) (17 * HOUR) None
    = Ok [(at_ 0 9, at_ 0 12); (at_ 0 12, at_ 0 17); (at_ 1 0, at_ 0 17)]
  /\ reminder_at [r] [alice] (at_ 0 12).
Proof.
  split; [vm_compute; reflexivity|].
  eexists "alice"%string, _. split; [now left|]. split; [now left|]. split; [|split; reflexivity].
  split; [reflexivity|]. split; [discriminate|]. exists "ACCEPTED"%string. split; [reflexivity|]. split; discriminate.
Qed.
