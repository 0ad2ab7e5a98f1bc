(** Blocked and free periods. *)
From Verif Require Import Base PyDate DateFacts Recurrent SpecRecur RecurProofs RecurMisc Util UtilProofs
  CalTime TimeProofs Event Storage QueryProofs.
From Coq Require Import ZifyBool.
Ltac Zify.zify_post_hook ::= Z.div_mod_to_equations.
Local Opaque ord2ymd year_of month_of day_of ymd2ord days_in_month is_leap.

(** ** who is busy when *)
(** the event takes the participant's time *)
Definition takes_time (e : event) (i : string) : Prop :=
  e_transparent e = false /\ e_status e <> "CANCELED"%string
  /\ exists st, attends e i st /\ st <> "DECLINED"%string /\ st <> "DELEGATED"%string.

Definition busy (evs : list event) (atts : list attendee) (t : Z) : Prop :=
  exists i e, In (Some i) atts /\ In e evs /\ takes_time e i /\ happens e t.

Definition outside (tb te t : Z) : Prop := dt_time t < tb \/ te <= dt_time t.

Definition window_ok (tb te : Z) : Prop := 0 <= tb < DAY /\ 0 <= te < DAY.

Lemma covers_app l1 l2 t : covers (l1 ++ l2) t <-> covers l1 t \/ covers l2 t.
Proof.
  split.
  - intros (s & e & H & T). apply in_app_iff in H as [H|H]; [left|right]; exists s, e; auto.
  - intros [(s & e & H & T)|(s & e & H & T)]; exists s, e; (split; [apply in_app_iff; auto|exact T]).
Qed.

Lemma pair_eqb_eq a b : pair_eqb a b = true <-> a = b.
Proof. destruct a, b; unfold pair_eqb; cbn. split; [intros; f_equal; lia|intros X; injection X; lia]. Qed.

Lemma dedup_in l x : In x (dedup_pairs l) <-> In x l.
Proof.
  induction l as [|a l IH]; [tauto|]. cbn [dedup_pairs]. destruct (existsb (pair_eqb a) (dedup_pairs l)) eqn:E.
  - rewrite IH. cbn. split; [auto|]. intros [<-|H]; [|exact H].
    apply existsb_exists in E as (y & Y1 & Y2). apply pair_eqb_eq in Y2. subst y. now apply IH.
  - cbn. rewrite IH. tauto.
Qed.

Lemma dedup_covers l t : covers (dedup_pairs l) t <-> covers l t.
Proof. split; intros (s & e & H & T); exists s, e; (split; [now apply dedup_in|exact T]). Qed.

(** ** night blocks *)
Lemma night_in n tb te : forall d end_d l, night_blocks n tb te d end_d = Ok l ->
  end_d - d + 1 <= Z.of_nat n ->
  forall x, In x l <-> exists k, d <= k <= end_d /\ (x = (combine k 0, combine k tb) \/ x = (combine k te, combine (k + 1) 0)).
Proof.
  induction n as [|n IH]; intros d end_d l E H x; cbn [night_blocks] in E.
  - injection E as <-. split; [intros []|]. intros (k & K & _). lia.
  - destruct (d <=? end_d) eqn:L.
    + unfold date_add in E. destruct ((1 <=? d + 1) && (d + 1 <=? MAXORD)); [|discriminate]. cbn [rbind] in E.
      destruct (night_blocks n tb te (d + 1) end_d) as [r| |] eqn:R; try discriminate. injection E as <-.
      cbn [In]. rewrite (IH _ _ _ R ltac:(lia)). split.
      * intros [<-|[<-|(k & K1 & K2)]]; [exists d|exists d|exists k]; (split; [lia|auto]).
      * intros (k & K1 & K2). destruct (Z.eq_dec k d) as [->|N]; [destruct K2 as [->| ->]; auto|].
        right; right. exists k. split; [lia|exact K2].
    + injection E as <-. split; [intros []|]. intros (k & K & _). lia.
Qed.

Lemma night_total n tb te : forall d end_d, 0 <= d -> end_d < MAXORD -> exists l, night_blocks n tb te d end_d = Ok l.
Proof.
  induction n as [|n IH]; intros d end_d H1 H2; [now exists []|]. cbn [night_blocks].
  destruct (d <=? end_d) eqn:L; [|now exists []]. unfold date_add.
  replace ((1 <=? d + 1) && (d + 1 <=? MAXORD)) with true by lia. cbn [rbind].
  destruct (IH (d + 1) end_d) as [l ->]; [lia|lia|]. cbn [rbind]. eauto.
Qed.

Lemma night_covers nb tb te a b t : window_ok tb te ->
  (forall x, In x nb <-> exists k, a <= k <= b /\ (x = (combine k 0, combine k tb) \/ x = (combine k te, combine (k + 1) 0))) ->
  (covers nb t <-> a <= dt_date t <= b /\ outside tb te t).
Proof.
  intros [W1 W2] H. unfold covers, outside. split.
  - intros (s & e & I & T). apply H in I as (k & K1 & [K2|K2]); injection K2 as -> ->;
      unfold combine, dt_date, dt_time, DAY in *; lia.
  - intros [D [O|O]].
    + exists (combine (dt_date t) 0), (combine (dt_date t) tb). split.
      * apply H. exists (dt_date t). auto.
      * unfold combine, dt_date, dt_time, DAY in *; lia.
    + exists (combine (dt_date t) te), (combine (dt_date t + 1) 0). split.
      * apply H. exists (dt_date t). auto.
      * unfold combine, dt_date, dt_time, DAY in *; lia.
Qed.

(** ** one segment *)
Lemma blocks_spec i e b : blocks (Some i) e = Ok b -> (exists st, attends e i st) ->
  (b = true <-> takes_time e i).
Proof.
  unfold blocks, takes_time, get_status. cbn [attendee_id rbind]. intros E (st & A). rewrite A in E.
  destruct (e_transparent e); cbn [orb] in E.
  { injection E as <-. split; [discriminate|]. intros (X & _). discriminate. }
  destruct (String.eqb_spec (e_status e) "CANCELED") as [C|C].
  { injection E as <-. split; [discriminate|]. intros (_ & X & _). contradiction. }
  assert (B : b = negb (str_in st ["DECLINED"; "DELEGATED"]%string)) by (cbn [rbind] in E; congruence).
  rewrite B, negb_true_iff, <- not_true_iff_false, str_in_iff. cbn [In]. split.
  - intros H. split; [reflexivity|]. split; [exact C|]. exists st. split; [exact A|]. split; intros ->; apply H; auto.
  - intros (_ & _ & st' & A' & N1 & N2). unfold attends in *. rewrite A in A'. injection A' as <-.
    intros [X|[X|[]]]; congruence.
Qed.

(** the interval entered for a segment *)
Definition clipped (tb te s e : Z) : Z * Z :=
  let D := dt_date s in (Z.max s (combine D tb), Z.min e (combine D te)).

Lemma blocked_of_spec i begins ends tb te o d l : window_ok tb te -> o_duration o = Some d -> 0 <= d ->
  begins <= o_dtstart o -> (exists st, attends (o_original o) i st) ->
  blocked_of (Some i) begins ends tb te o = Ok l ->
  forall x, In x l <-> takes_time (o_original o) i /\ o_dtstart o < ends
                        /\ x = clipped tb te (o_dtstart o) (o_dtstart o + d).
Proof.
  intros [W1 W2] D D0 B AT E x. unfold blocked_of in E.
  destruct (blocks (Some i) (o_original o)) as [b| |] eqn:BL; try discriminate. cbn [rbind] in E.
  pose proof (blocks_spec _ _ _ BL AT) as BS. destruct b; cbn [negb] in E.
  2:{ injection E as <-. split; [intros []|]. intros (H & _). apply BS in H. discriminate. }
  assert (TT : takes_time (o_original o) i) by now apply BS.
  rewrite D in E. unfold end_of, dt_add in E. destruct (dt_ok (o_dtstart o + d)); [|discriminate]. cbn [rbind] in E.
  replace (o_dtstart o + d <? begins) with false in E by lia.
  destruct (ends <=? o_dtstart o) eqn:L.
  { injection E as <-. split; [intros []|]. intros (_ & H & _). lia. }
  injection E as <-. cbn [In]. unfold clipped.
  set (s := o_dtstart o) in *. set (e := s + d) in *.
  assert (S1 : (if s <? combine (dt_date s) tb then combine (dt_date s) tb else s) = Z.max s (combine (dt_date s) tb))
    by (destruct (s <? combine (dt_date s) tb) eqn:?; lia).
  rewrite S1.
  assert (S2 : dt_date (Z.max s (combine (dt_date s) tb)) = dt_date s)
    by (unfold combine, dt_date, DAY in *; lia).
  rewrite S2.
  assert (S3 : (if combine (dt_date s) te <=? e then combine (dt_date s) te else e) = Z.min e (combine (dt_date s) te))
    by (destruct (combine (dt_date s) te <=? e) eqn:?; lia).
  rewrite S3. split.
  - intros [<-|[]]. split; [exact TT|]. split; [lia|reflexivity].
  - intros (_ & _ & ->). now left.
Qed.

(** ** all events *)
Definition att_criteria (a : attendee) : option criteria := Some (mk_criteria (AMany [a]) None None None None).

Lemma att_satisfies i e : satisfies (the_criteria (att_criteria (Some i))) e <-> exists st, attends e i st.
Proof.
  unfold satisfies. cbn. split.
  - intros (_ & _ & H). destruct (H _ eq_refl) as (j & st & [J|[]] & A & _). injection J as <-. eauto.
  - intros (st & A). split; [discriminate|]. split; [discriminate|]. intros l E. injection E as <-.
    exists i, st. split; [now left|]. split; [exact A|]. split; discriminate.
Qed.

Definition positive (evs : list event) : Prop := forall e d, In e evs -> e_duration e = Some d -> 0 < d.

Lemma segmented_zero F evs b pe c out : evs_ok evs -> dt_ok pe = true -> positive evs ->
  get_occurrences_segmented F evs (Some b, Some pe) c = Ok out ->
  forall o, In o out -> o_duration o = Some 0 -> dt_time (o_dtstart o) = 0.
Proof.
  intros OK OE PO E o Ho Z0. unfold get_occurrences_segmented in E.
  destruct (get_occurrences F evs (Some b, Some pe) c) as [l| |] eqn:G; try discriminate. cbn [rbind assert_bounded] in E.
  apply (segments_in _ _ _ _ E) in Ho as (occ & segs & H1 & H2 & H3).
  apply (get_occurrences_in _ _ _ _ _ _ OK G) in H1 as (e & t0 & d & K1 & _ & K3 & -> & _).
  specialize (PO e d K1 K3).
  destruct (segment_one_props b pe (mkOcc t0 (Some d) e) segs d OE eq_refl ltac:(lia) H2) as (_ & P2 & _).
  destruct (P2 o H3) as (Q & d' & Q1 & Q2 & _ & _ & _ & _ & _ & Q8).
  rewrite Z0 in Q1. injection Q1 as <-. destruct (Q8 eq_refl) as (R1 & _ & [R3|R3]); [lia|]. cbn [o_dtstart] in *. congruence.
Qed.

Lemma get_blocked_inv F evs atts begins ends tb te l : evs_ok evs -> dt_ok begins = true -> dt_ok ends = true ->
  window_ok tb te -> get_blocked F evs atts begins ends tb te = Ok l ->
  exists bl nb,
    l = remove_overlaps (dedup_pairs bl ++ nb)
    /\ (forall x, In x bl -> exists s e, x = clipped tb te s e /\ begins <= s /\ s <= e <= ends /\ s < ends
          /\ (s < e -> e <= (dt_date s + 1) * DAY) /\ (positive evs -> s < e \/ dt_time s = 0))
    /\ (forall t, begins <= t < ends -> (covers bl t <-> busy evs atts t /\ ~ outside tb te t))
    /\ (forall x, In x nb <-> exists k, dt_date begins <= k < dt_date (ends + DAY - 1)
          /\ (x = (combine k 0, combine k tb) \/ x = (combine k te, combine (k + 1) 0))).
Proof.
  intros OK OB OE W E. unfold get_blocked in E.
  destruct (rconcat_map _ atts) as [bl| |] eqn:BL; try discriminate. cbn [rbind] in E.
  assert (ED : (if dt_time ends =? 0 then date_add (dt_date ends) (-1) else Ok (dt_date ends))
      = Ok (dt_date (ends + DAY - 1) - 1)).
  { apply dt_ok_date in OE. unfold date_add.
    destruct (dt_time ends =? 0) eqn:TZ.
    - destruct ((1 <=? dt_date ends + -1) && (dt_date ends + -1 <=? MAXORD)) eqn:R.
      + f_equal. unfold dt_date, dt_time, DAY in *. lia.
      + exfalso. unfold date_add in E. rewrite R in E. discriminate.
    - f_equal. unfold dt_date, dt_time, DAY in *. lia. }
  rewrite ED in E. cbn [rbind] in E.
  set (K := dt_date (ends + DAY - 1)) in *.
  destruct (night_blocks _ tb te (dt_date begins) (K - 1)) as [nb| |] eqn:NB; try discriminate.
  cbn [rbind] in E. injection E as <-. exists bl, nb. split; [reflexivity|].
  assert (NBS := night_in _ _ _ _ _ _ NB ltac:(unfold night_fuel; lia)).
  (* facts about each segment *)
  assert (SEG : forall a, In a atts -> exists occs,
      get_occurrences_segmented F evs (Some begins, Some ends) (att_criteria a) = Ok occs
      /\ exists ba, rconcat_map (blocked_of a begins ends tb te) occs = Ok ba).
  { intros a Ha. destruct (rconcat_all _ _ _ BL a Ha) as [ya Y]. unfold att_criteria.
    destruct (get_occurrences_segmented F evs (Some begins, Some ends) (Some (mk_criteria (AMany [a]) None None None None)))
      as [occs| |]; try discriminate. cbn [rbind] in Y. eauto. }
  assert (ATT : forall i o occs, In (Some i) atts ->
      get_occurrences_segmented F evs (Some begins, Some ends) (att_criteria (Some i)) = Ok occs -> In o occs ->
      exists d, o_duration o = Some d /\ 0 <= d /\ In (o_original o) evs /\ begins <= o_dtstart o
        /\ o_dtstart o + d <= ends
        /\ (0 < d -> o_dtstart o + d <= (dt_date (o_dtstart o) + 1) * DAY)
        /\ exists st, attends (o_original o) i st).
  { intros i o occs Ha G Ho.
    destruct (segmented_within _ _ _ _ _ _ OK OE G o Ho) as (d & D1 & D2 & D3 & D4 & D5 & D6 & D & D7 & D8).
    apply att_satisfies in D4. exists d. split; [exact D1|]. split; [exact D2|]. split; [exact D3|].
    split; [exact D5|]. split; [exact D6|]. split; [|exact D4].
    intros P. unfold dt_date, DAY in *. lia. }
  assert (NOAN : forall a x ys, In a atts -> In x ys ->
     (let* occs := get_occurrences_segmented F evs (Some begins, Some ends) (att_criteria a) in
      rconcat_map (blocked_of a begins ends tb te) occs) = Ok ys -> exists i, a = Some i).
  { intros a x ys Ha Hx Y. destruct a as [i|]; [eauto|exfalso].
    destruct (get_occurrences_segmented F evs (Some begins, Some ends) (att_criteria None)) as [occs| |] eqn:G; try discriminate.
    cbn [rbind] in Y. destruct (proj1 (rconcat_in _ _ _ Y x) Hx) as (o & yo & O1 & O2 & O3).
    destruct (segmented_within _ _ _ _ _ _ OK OE G o O1) as (d & _ & _ & _ & D4 & _).
    destruct D4 as (_ & _ & D4). destruct (D4 _ eq_refl) as (j & st & [J|[]] & _). discriminate. }
  split; [|split].
  - intros x Hx. apply (rconcat_in _ _ _ BL) in Hx as (a & ya & A1 & A2 & A3).
    destruct (NOAN a x ya A1 A3 A2) as [i ->].
    destruct (get_occurrences_segmented F evs (Some begins, Some ends) (att_criteria (Some i))) as [occs| |] eqn:G;
      unfold att_criteria in G; rewrite G in A2; try discriminate. cbn [rbind] in A2.
    apply (rconcat_in _ _ _ A2) in A3 as (o & yo & O1 & O2 & O3).
    destruct (ATT i o occs A1 G O1) as (d & D1 & D2 & D3 & D4 & D5 & D6 & D7).
    apply (blocked_of_spec _ _ _ _ _ _ _ _ W D1 D2 D4 D7 O2) in O3 as (_ & L & ->).
    exists (o_dtstart o), (o_dtstart o + d). split; [reflexivity|]. split; [exact D4|]. split; [lia|]. split; [exact L|].
    split; [intros P; apply D6; lia|]. intros PO. destruct (Z.eq_dec d 0) as [->|NZ]; [right|left; lia].
    exact (segmented_zero _ _ _ _ _ _ OK OE PO G o O1 D1).
  - intros t T. split.
    + intros (s & e & Hx & ST). apply (rconcat_in _ _ _ BL) in Hx as (a & ya & A1 & A2 & A3).
      destruct (NOAN a _ ya A1 A3 A2) as [i ->].
      destruct (get_occurrences_segmented F evs (Some begins, Some ends) (att_criteria (Some i))) as [occs| |] eqn:G;
        unfold att_criteria in G; rewrite G in A2; try discriminate. cbn [rbind] in A2.
      apply (rconcat_in _ _ _ A2) in A3 as (o & yo & O1 & O2 & O3).
      destruct (ATT i o occs A1 G O1) as (d & D1 & D2 & D3 & D4 & D5 & D6 & D7).
      apply (blocked_of_spec _ _ _ _ _ _ _ _ W D1 D2 D4 D7 O2) in O3 as (TT & L & X).
      unfold clipped in X. injection X as -> ->.
      destruct W as [W1 W2].
      assert (TD : dt_date t = dt_date (o_dtstart o)) by (unfold combine, dt_date, DAY in *; lia).
      split.
      * destruct (segmented_coverage _ _ _ _ _ _ OK OE G (o_original o) t) as [SC _].
        destruct SC as (S1 & _ & _ & S4).
        { exists o. split; [exact O1|]. split; [reflexivity|]. exists d. split; [exact D1|]. lia. }
        exists i, (o_original o). auto.
      * unfold outside. unfold combine, dt_date, dt_time, DAY in *. lia.
    + intros [(i & e & I1 & I2 & TT & HP) NO].
      destruct (SEG (Some i) I1) as (occs & G & ba & BA).
      destruct (segmented_coverage _ _ _ _ _ _ OK OE G e t) as [_ SC].
      destruct SC as (o & O1 & O2 & d & D & DT).
      { split; [exact I2|]. split; [apply att_satisfies; destruct TT as (_ & _ & st & A & _); eauto|]. auto. }
      destruct (ATT i o occs I1 G O1) as (d' & D1 & D2 & D3 & D4 & D5 & D6 & D7).
      rewrite D in D1. injection D1 as <-.
      destruct (rconcat_all _ _ _ BA o O1) as [yo Y].
      pose proof (blocked_of_spec _ _ _ _ _ _ _ _ W D D2 D4 D7 Y) as BS.
      assert (IN : In (clipped tb te (o_dtstart o) (o_dtstart o + d)) yo).
      { apply BS. split; [now rewrite O2|]. split; [lia|reflexivity]. }
      destruct W as [W1 W2]. specialize (D6 ltac:(lia)).
      assert (TD : dt_date t = dt_date (o_dtstart o)) by (unfold combine, dt_date, DAY in *; lia).
      unfold clipped in IN. eexists. eexists. split.
      * apply (rconcat_in _ _ _ BL). exists (Some i), ba. split; [exact I1|]. split.
        -- unfold att_criteria in G. rewrite G. cbn [rbind]. exact BA.
        -- apply (rconcat_in _ _ _ BA). exists o, yo. split; [exact O1|]. split; [exact Y|exact IN].
      * unfold outside in NO. unfold combine, dt_date, dt_time, DAY in *. lia.
  - intros x. rewrite NBS. split; intros (k & K1 & K2); exists k; (split; [lia|exact K2]).
Qed.

Lemma get_blocked_exact F evs atts begins ends tb te l : evs_ok evs -> dt_ok begins = true -> dt_ok ends = true ->
  window_ok tb te -> get_blocked F evs atts begins ends tb te = Ok l ->
  forall t, begins <= t < ends -> (covers l t <-> outside tb te t \/ busy evs atts t).
Proof.
  intros OK OB OE W E t T. destruct (get_blocked_inv _ _ _ _ _ _ _ _ OK OB OE W E) as (bl & nb & -> & _ & B & N).
  rewrite remove_overlaps_covers, covers_app, dedup_covers, (B t T).
  rewrite (night_covers nb tb te (dt_date begins) (dt_date (ends + DAY - 1) - 1) t W).
  2:{ intros x. rewrite N. split; intros (k & K1 & K2); exists k; (split; [lia|exact K2]). }
  assert (dt_date begins <= dt_date t <= dt_date (ends + DAY - 1) - 1) by (unfold dt_date, DAY in *; lia).
  assert (DEC : outside tb te t \/ ~ outside tb te t) by (unfold outside; lia). tauto.
Qed.

Lemma get_blocked_form F evs atts begins ends tb te l : evs_ok evs -> dt_ok begins = true -> dt_ok ends = true ->
  window_ok tb te -> get_blocked F evs atts begins ends tb te = Ok l ->
  gapped l /\ Forall wf l.
Proof.
  intros OK OB OE W E. destruct (get_blocked_inv _ _ _ _ _ _ _ _ OK OB OE W E) as (bl & nb & -> & BL & _ & N).
  split; [apply remove_overlaps_gapped|]. apply remove_overlaps_wf. destruct W as [W1 W2].
  intros x Hx. apply in_app_iff in Hx as [Hx|Hx].
  - apply (proj1 (dedup_in _ _)) in Hx. destruct (BL x Hx) as (s & e & -> & B1 & B2 & B3 & B4). unfold wf, hidden, clipped. cbn [fst snd].
    set (D := dt_date s) in *.
    assert (DR : dt_date begins <= D < dt_date (ends + DAY - 1)) by (subst D; unfold dt_date, DAY in *; lia).
    destruct (Z_le_gt_dec (Z.max s (combine D tb)) (Z.min e (combine D te))) as [L|L]; [now left|right].
    destruct (Z_lt_le_dec e (combine D tb)) as [C|C].
    + exists (combine D 0), (combine D tb). split.
      * apply in_app_iff. right. apply N. exists D. auto.
      * subst D. unfold combine, dt_date, DAY in *. lia.
    + exists (combine D te), (combine (D + 1) 0). split.
      * apply in_app_iff. right. apply N. exists D. auto.
      * subst D. unfold combine, dt_date, DAY in *. lia.
  - apply N in Hx as (k & _ & [-> | ->]); left; unfold wf, combine, DAY in *; cbn [fst snd]; lia.
Qed.

Lemma get_blocked_total evs atts begins ends tb te : evs_ok evs -> ~ In None atts ->
  dt_ok begins = true -> dt_ok ends = true -> begins < MAXORD * DAY -> ends < MAXORD * DAY -> begins < ends ->
  window_ok tb te -> (forall e, In e evs -> expand_room e ends) ->
  exists N, forall F, (N <= F)%nat -> exists l, get_blocked F evs atts begins ends tb te = Ok l.
Proof.
  intros OK NN OB OE LB LE BE W RM.
  assert (X : exists N, forall F, (N <= F)%nat -> exists bl, rconcat_map (fun a =>
      let* occs := get_occurrences_segmented F evs (Some begins, Some ends)
                     (Some (mk_criteria (AMany [a]) None None None None)) in
      rconcat_map (blocked_of a begins ends tb te) occs) atts = Ok bl).
  { induction atts as [|a atts IH]; [exists O; intros; now exists []|].
    destruct IH as [N1 H1]; [intros H; apply NN; now right|].
    destruct a as [i|]; [|exfalso; apply NN; now left].
    destruct (segmented_total evs begins ends (att_criteria (Some i)) OK) as [N2 H2]; try assumption.
    { split; [discriminate|]. intros l E. cbn in E. injection E as <-. intros [H|[]]. discriminate. }
    exists (Nat.max N1 N2). intros F HF. destruct (H1 F ltac:(lia)) as [b1 B1]. destruct (H2 F ltac:(lia)) as [occs G].
    cbn [rconcat_map]. unfold att_criteria in G. rewrite G. cbn [rbind].
    destruct (rconcat_ok (blocked_of (Some i) begins ends tb te) occs) as [yo ->].
    { intros o Ho. destruct (segmented_within _ _ _ _ _ _ OK OE G o Ho) as (d & D1 & D2 & D3 & D4 & D5 & D6 & _).
      unfold blocked_of, blocks, get_status. cbn [attendee_id rbind].
      assert (exists b, (if e_transparent (o_original o) || String.eqb (e_status (o_original o)) "CANCELED" then Ok false
        else Ok (negb match dget (e_state (o_original o)) i with
                      | Some s => str_in s ["DECLINED"%string; "DELEGATED"%string] | None => false end)) = Ok b) as [b ->]
        by (destruct (_ || _); eauto).
      cbn [rbind]. destruct b; cbn [negb]; [|eauto].
      rewrite D1. unfold end_of, dt_add.
      replace (dt_ok (o_dtstart o + d)) with true by (unfold dt_ok, DAY, MAXORD in *; lia). cbn [rbind].
      destruct (_ <? begins); [eauto|]. destruct (ends <=? _); eauto. }
    cbn [rbind]. rewrite B1. cbn [rbind]. eauto. }
  destruct X as [N HN]. exists N. intros F HF. unfold get_blocked. destruct (HN F HF) as [bl ->]. cbn [rbind].
  apply dt_ok_date in OB.
  assert (ED : exists k, (if dt_time ends =? 0 then date_add (dt_date ends) (-1) else Ok (dt_date ends)) = Ok k /\ k < MAXORD).
  { destruct (dt_time ends =? 0) eqn:TZ; unfold date_add.
    - assert (2 <= dt_date ends <= MAXORD) by (unfold dt_date, dt_time, DAY, MAXORD in *; lia).
      replace ((1 <=? dt_date ends + -1) && (dt_date ends + -1 <=? MAXORD)) with true by lia.
      exists (dt_date ends + -1). split; [reflexivity|]. lia.
    - exists (dt_date ends). split; [reflexivity|]. unfold dt_date, DAY, MAXORD in *. lia. }
  destruct ED as (k & -> & Hk). cbn [rbind].
  destruct (night_total (night_fuel (dt_date begins) k) tb te (dt_date begins) k ltac:(lia) Hk) as [nb ->].
  cbn [rbind]. eauto.
Qed.

(** ** free periods: the gaps between the blocks *)
Fixpoint gaps (last : Z) (l : list (Z * Z)) : list (Z * Z) :=
  match l with
  | [] => []
  | (s, e) :: r => (last, s) :: gaps e r
  end.

Lemma gaps_spec l : forall s1 e1, gapped ((s1, e1) :: l) -> Forall wf ((s1, e1) :: l) ->
  Forall nonempty (gaps e1 l)
  /\ gapped (gaps e1 l) = gapped (gaps e1 l)
  /\ (forall x, In x (gaps e1 l) -> e1 <= fst x)
  /\ (forall t, covers (gaps e1 l) t <-> e1 <= t /\ (exists y, In y ((s1, e1) :: l) /\ t < fst y) /\ ~ covers l t).
Proof.
  induction l as [|[s e] l IH]; intros s1 e1 G W.
  - cbn [gaps]. split; [constructor|]. split; [reflexivity|]. split; [intros x []|].
    intros t. rewrite covers_nil. split; [tauto|]. intros (T & (y & [<-|[]] & Y) & _). cbn in Y.
    inversion W as [|? ? W1 _]; subst. unfold wf in W1. cbn in W1. lia.
  - cbn [gapped] in G. destruct G as [G1 G2]. cbn [fst snd] in G1.
    inversion W as [|? ? W1 W2]; subst. inversion W2 as [|? ? W3 W4]; subst. unfold wf in W1, W3. cbn [fst snd] in W1, W3.
    destruct (IH s e G2 W2) as (I1 & _ & I3 & I4). cbn [gaps].
    pose proof (gapped_lower l (s, e) G2 W2) as LOW. rewrite Forall_forall in LOW. cbn [snd] in LOW.
    split; [constructor; [unfold nonempty; cbn; lia|exact I1]|]. split; [reflexivity|]. split.
    + intros x [<-|H]; [cbn; lia|]. specialize (I3 x H). lia.
    + intros t. rewrite !covers_cons, I4. split.
      * intros [T|(T & (y & Y1 & Y2) & NC)].
        -- split; [lia|]. split; [exists (s, e); cbn; split; [auto|lia]|].
           intros [C|(a & b & C & Q)]; [lia|]. specialize (LOW _ C). cbn in LOW. lia.
        -- split; [lia|]. split; [exists y; split; [now right|exact Y2]|]. intros [C|C]; [lia|contradiction].
      * intros (T & (y & Y1 & Y2) & NC). destruct (Z_lt_le_dec t s) as [L|L]; [left; lia|right].
        assert (e <= t) by (destruct (Z_lt_le_dec t e) as [Q|Q]; [exfalso; apply NC; left; lia|exact Q]).
        split; [lia|]. split; [|tauto]. exists y. split; [|exact Y2].
        destruct Y1 as [<-|Y1]; [cbn in Y2; lia|exact Y1].
Qed.

Lemma gaps_gapped l : forall s1 e1, gapped ((s1, e1) :: l) -> Forall wf ((s1, e1) :: l) ->
  (forall x, In x l -> fst x < snd x) -> gapped (gaps e1 l).
Proof.
  induction l as [|[s e] l IH]; intros s1 e1 G W NE; [exact I|]. cbn [gaps].
  cbn [gapped] in G. destruct G as [G1 G2]. inversion W as [|? ? W1 W2]; subst.
  specialize (IH s e G2 W2 (fun x Hx => NE x (or_intror Hx))).
  destruct l as [|[s2 e2] l]; [cbn; auto|]. cbn [gaps]. cbn [gaps] in IH.
  split; [|exact IH]. cbn. specialize (NE (s, e) (or_introl eq_refl)). cbn in NE. exact NE.
Qed.

(** sorted, disjoint *)
Fixpoint ordered (l : list (Z * Z)) : Prop :=
  match l with
  | [] => True
  | x :: r => match r with [] => True | y :: _ => snd x <= fst y end /\ ordered r
  end.

Lemma gaps_ordered l : forall e1, Forall wf l -> ordered (gaps e1 l).
Proof.
  induction l as [|[s e] l IH]; intros e1 W; [exact I|]. inversion W as [|? ? W1 W2]; subst. cbn [gaps].
  specialize (IH e W2). destruct l as [|[s2 e2] l]; cbn [gaps] in *; cbn [ordered fst snd]; [auto|].
  unfold wf in W1. cbn in W1. split; [lia|exact IH].
Qed.

Lemma last_dflt (q : list Z) : forall x a, last (x :: q) a = last q x.
Proof.
  induction q as [|y q IH]; intros x a; [reflexivity|].
  change (last (x :: y :: q) a) with (last (y :: q) a). now rewrite !IH.
Qed.

(** the free loop, once past the first block *)
Lemma free_loop_eq tb m ends : forall l s1 e1, gapped ((s1, e1) :: l) ->
  (forall x, In x l -> tb <= dt_time (fst x)) ->
  free_loop tb m ends e1 l
  = filter (fun x => long_enough m (snd x - fst x)) (gaps e1 l)
    ++ (let lst := last (map snd l) e1 in
        if negb (lst =? ends) && long_enough m (ends - lst) then [(lst, ends)] else []).
Proof.
  induction l as [|[s e] l IH]; intros s1 e1 G TB.
  - reflexivity.
  - cbn [gapped] in G. destruct G as [G1 G2]. cbn [fst snd] in G1.
    cbn [free_loop gaps filter fst snd].
    rewrite (IH s e G2 (fun x H => TB x (or_intror H))).
    specialize (TB (s, e) (or_introl eq_refl)). cbn [fst] in TB.
    replace (tb <=? dt_time s) with true by lia. replace (e1 =? s) with false by lia. cbn [negb andb].
    rewrite app_assoc. f_equal.
    + destruct (long_enough m (s - e1)); reflexivity.
    + change (map snd ((s, e) :: l)) with (e :: map snd l). 
      now rewrite last_dflt.
Qed.

(** what the list of blocks looks like *)
Lemma last_snd_in (l : list (Z * Z)) : forall s e, exists s', In (s', last (map snd l) e) ((s, e) :: l).
Proof.
  induction l as [|[a b] l IH]; intros s e; [exists s; now left|].
  destruct (IH a b) as [s' H]. exists s'.
  replace (last (map snd ((a, b) :: l)) e) with (last (map snd l) b); [right; exact H|].
  cbn [map snd]. symmetry. apply last_dflt.
Qed.

Lemma gapped_last l : forall s e, gapped ((s, e) :: l) -> Forall wf ((s, e) :: l) ->
  forall x, In x ((s, e) :: l) -> snd x <= last (map snd l) e.
Proof.
  induction l as [|[a b] l IH]; intros s e G W x Hx.
  - destruct Hx as [<-|[]]. cbn. lia.
  - cbn [gapped] in G. destruct G as [G1 G2]. cbn [fst snd] in G1. inversion W as [|? ? W1 W2]; subst.
    inversion W2 as [|? ? W3 _]; subst. unfold wf in W3. cbn in W3.
    assert (Q : last (map snd ((a, b) :: l)) e = last (map snd l) b).
    { cbn [map snd]. apply last_dflt. }
    rewrite Q. destruct Hx as [<-|Hx]; [|now apply (IH a b)].
    pose proof (IH a b G2 W2 (a, b) (or_introl eq_refl)) as R. cbn [snd] in *. lia.
Qed.

(** working hours that end before they begin block whole days *)
Lemma blocked_overnight F evs atts begins ends tb te l : evs_ok evs -> dt_ok begins = true -> dt_ok ends = true ->
  begins < ends -> window_ok tb te -> te < tb -> get_blocked F evs atts begins ends tb te = Ok l ->
  l = [(combine (dt_date begins) 0, combine (dt_date (ends + DAY - 1)) 0)].
Proof.
  intros OK OB OE BE W TT E.
  destruct (get_blocked_form _ _ _ _ _ _ _ _ OK OB OE W E) as [G WF].
  destruct (get_blocked_inv _ _ _ _ _ _ _ _ OK OB OE W E) as (bl & nb & EQ & BL & _ & N).
  set (K := dt_date (ends + DAY - 1)) in *. set (D0 := dt_date begins) in *.
  assert (DK : D0 < K) by (subst D0 K; unfold dt_date, DAY in *; lia).
  destruct W as [W1 W2].
  assert (ALL : forall x, In x (dedup_pairs bl ++ nb) -> combine D0 0 <= fst x /\ snd x <= combine K 0).
  { intros x Hx. apply in_app_iff in Hx as [Hx|Hx].
    - apply (proj1 (dedup_in _ _)) in Hx. destruct (BL x Hx) as (s & e & -> & B1 & B2 & B3 & _). unfold clipped. cbn [fst snd].
      split; [subst D0; unfold combine, dt_date, DAY in *; lia|].
      subst K; unfold combine, dt_date, DAY in *; lia.
    - apply N in Hx as (k & Hk & [-> | ->]); cbn [fst snd]; unfold combine, DAY in *; lia. }
  assert (PARTS : forall s e, In (s, e) l -> combine D0 0 <= s /\ e <= combine K 0).
  { intros s e H. rewrite EQ in H. apply remove_overlaps_parts in H as [[e' H1] [s' H2]].
    apply ALL in H1, H2. cbn in *. tauto. }
  assert (COV : forall t, combine D0 0 <= t < combine K 0 -> covers l t).
  { intros t T. rewrite EQ. apply remove_overlaps_covers, covers_app. right.
    assert (D : D0 <= dt_date t < K) by (unfold combine, dt_date, DAY in *; lia).
    destruct (Z_lt_le_dec (dt_time t) tb) as [C|C].
    - exists (combine (dt_date t) 0), (combine (dt_date t) tb). split; [apply N; exists (dt_date t); auto|].
      unfold combine, dt_date, dt_time, DAY in *. lia.
    - exists (combine (dt_date t) te), (combine (dt_date t + 1) 0). split; [apply N; exists (dt_date t); auto|].
      unfold combine, dt_date, dt_time, DAY in *. lia. }
  assert (C0 : combine D0 0 < combine K 0) by (unfold combine, DAY; lia).
  destruct l as [|[s1 e1] r].
  { exfalso. apply (covers_nil (combine D0 0)). apply COV. lia. }
  pose proof (gapped_lower r _ G WF) as LOW. rewrite Forall_forall in LOW. cbn [snd] in LOW.
  inversion WF as [|? ? WF1 WF2]; subst. unfold wf in WF1. cbn [fst snd] in WF1. rewrite Forall_forall in WF2. unfold wf in WF2.
  destruct (PARTS s1 e1 (or_introl eq_refl)) as [P1 P2].
  assert (S1 : s1 = combine D0 0).
  { destruct (COV (combine D0 0) ltac:(lia)) as (a & b & [X|X] & T); [injection X as -> ->; lia|].
    specialize (LOW _ X). cbn [fst] in LOW. lia. }
  assert (E1 : e1 = combine K 0).
  { destruct (Z_lt_le_dec e1 (combine K 0)) as [L|L]; [|lia]. exfalso.
    destruct (COV e1 ltac:(lia)) as (a & b & [X|X] & T); [injection X as -> ->; lia|].
    specialize (LOW _ X). cbn [fst] in LOW. lia. }
  destruct r as [|[a b] r]; [congruence|exfalso].
  specialize (LOW (a, b) (or_introl eq_refl)). specialize (WF2 (a, b) (or_introl eq_refl)). cbn [fst snd] in *.
  destruct (PARTS a b (or_intror (or_introl eq_refl))) as [_ P3]. lia.
Qed.

Lemma blocked_shape F evs atts begins ends tb te l : evs_ok evs -> dt_ok begins = true -> dt_ok ends = true ->
  begins < ends -> window_ok tb te -> get_blocked F evs atts begins ends tb te = Ok l ->
  exists e1 r, l = (combine (dt_date begins) 0, e1) :: r
    /\ combine (dt_date begins) tb <= e1
    /\ (forall x, In x r -> tb <= dt_time (fst x))
    /\ last (map snd r) e1 = combine (dt_date (ends + DAY - 1)) 0.
Proof.
  intros OK OB OE BE W E. destruct (Z_lt_le_dec te tb) as [TT|TT].
  { rewrite (blocked_overnight _ _ _ _ _ _ _ _ OK OB OE BE W TT E). destruct W as [W1 W2].
    eexists _, _. split; [reflexivity|]. split; [|split; [intros x []|reflexivity]].
    unfold combine, dt_date, DAY in *. lia. }
  destruct (get_blocked_form _ _ _ _ _ _ _ _ OK OB OE W E) as [G WF].
  destruct (get_blocked_inv _ _ _ _ _ _ _ _ OK OB OE W E) as (bl & nb & EQ & BL & _ & N).
  set (K := dt_date (ends + DAY - 1)) in *. set (D0 := dt_date begins) in *.
  assert (DK : D0 < K) by (subst D0 K; unfold dt_date, DAY in *; lia).
  destruct W as [W1 W2].
  assert (ALL : forall x, In x (dedup_pairs bl ++ nb) -> combine D0 0 <= fst x /\ snd x <= combine K 0
    /\ (fst x = combine D0 0 \/ tb <= dt_time (fst x) \/ exists k, D0 < k < K /\ fst x = combine k 0)).
  { intros x Hx. apply in_app_iff in Hx as [Hx|Hx].
    - apply (proj1 (dedup_in _ _)) in Hx. destruct (BL x Hx) as (s & e & -> & B1 & B2 & B3 & _). unfold clipped. cbn [fst snd].
      split; [subst D0; unfold combine, dt_date, DAY in *; lia|].
      split; [subst K; unfold combine, dt_date, DAY in *; lia|].
      right; left. unfold combine, dt_time, dt_date, DAY in *. lia.
    - apply N in Hx as (k & Hk & [-> | ->]); cbn [fst snd].
      + split; [unfold combine, DAY; lia|]. split; [unfold combine, DAY in *; lia|].
        destruct (Z.eq_dec k D0) as [->|NE]; [now left|]. right; right. exists k. split; [lia|reflexivity].
      + split; [unfold combine, DAY; lia|]. split; [unfold combine, DAY in *; lia|].
        right; left. unfold combine, dt_time, DAY in *. lia. }
  assert (PARTS : forall s e, In (s, e) l -> combine D0 0 <= s /\ e <= combine K 0
     /\ (s = combine D0 0 \/ tb <= dt_time s \/ exists k, D0 < k < K /\ s = combine k 0)).
  { intros s e H. rewrite EQ in H. apply remove_overlaps_parts in H as [[e' H1] [s' H2]].
    apply ALL in H1, H2. cbn in *. tauto. }
  assert (COV : forall k, D0 <= k < K -> covers l (combine (k + 1) 0 - 1)).
  { intros k Hk. rewrite EQ. apply remove_overlaps_covers, covers_app. right.
    exists (combine k te), (combine (k + 1) 0). split; [apply N; exists k; auto|]. unfold combine, DAY in *. lia. }
  destruct l as [|[s1 e1] r].
  { exfalso. specialize (COV D0 ltac:(lia)). now apply covers_nil in COV. }
  assert (S1 : s1 = combine D0 0).
  { assert (IN : In (combine D0 0, combine D0 tb) (dedup_pairs bl ++ nb)).
    { apply in_app_iff. right. apply N. exists D0. split; [lia|auto]. }
    destruct (PARTS s1 e1 (or_introl eq_refl)) as (P1 & _ & _).
    enough (s1 <= combine D0 0) by lia.
    pose proof (sort_perm (dedup_pairs bl ++ nb)) as SP. pose proof (sort_sorted (dedup_pairs bl ++ nb)) as SS.
    unfold remove_overlaps in EQ. destruct (sort_pairs (dedup_pairs bl ++ nb)) as [|[a b] q] eqn:SQ; [discriminate|].
    destruct (merge_head q a b) as (le' & r' & MH & _). rewrite MH in EQ. injection EQ as -> _ _.
    assert (IN2 : In (combine D0 0, combine D0 tb) ((a, b) :: q)) by (eapply Permutation.Permutation_in; [symmetry; exact SP|exact IN]).
    inversion SS as [|? ? _ FS]; subst. rewrite Forall_forall in FS.
    destruct IN2 as [X|X]; [injection X as -> _; lia|]. specialize (FS _ X). unfold ple in FS. cbn in FS. lia. }
  subst s1.
  pose proof (gapped_lower r _ G WF) as LOW. rewrite Forall_forall in LOW. cbn [snd] in LOW.
  inversion WF as [|? ? WF1 WF2]; subst. unfold wf in WF1. cbn [fst snd] in WF1.
  assert (NOSTART : forall s e k, In (s, e) r -> D0 < k < K -> s = combine k 0 -> False).
  { intros s e k H Hk ->. destruct (COV (k - 1) ltac:(lia)) as (a & b & AB & T).
    replace (k - 1 + 1) with k in T by lia.
    assert (SEP : forall l0, gapped l0 -> Forall wf l0 -> forall x y, In x l0 -> In y l0 -> fst x < fst y -> snd x < fst y).
    { clear. induction l0 as [|z l0 IH]; intros G W x y Hx Hy L; [destruct Hx|].
      pose proof (gapped_lower l0 z G W) as LW. rewrite Forall_forall in LW.
      inversion W as [|? ? Wz W']; subst. unfold wf in Wz.
      destruct Hx as [<-|Hx], Hy as [<-|Hy].
      - lia.
      - now apply LW.
      - specialize (LW x Hx). lia.
      - apply IH; auto. now apply gapped_tail in G. }
    pose proof (SEP _ G WF (a, b) (combine k 0, e) AB (or_intror H)) as Q. cbn [fst snd] in Q. lia. }
  exists e1, r. split; [reflexivity|]. split; [|split].
  - (* the first block reaches the window *)
    destruct (Z.eq_dec tb 0) as [->|NZ]; [exact WF1|].
    assert (C0 : covers ((combine D0 0, e1) :: r) (combine D0 tb - 1)).
    { rewrite EQ. apply remove_overlaps_covers, covers_app. right.
      exists (combine D0 0), (combine D0 tb). split; [apply N; exists D0; split; [lia|auto]|]. unfold combine, DAY in *. lia. }
    apply covers_cons in C0 as [C0|(a & b & AB & C0)]; [lia|exfalso].
    specialize (LOW _ AB). cbn [fst] in LOW.
    destruct (PARTS a b (or_intror AB)) as (_ & _ & [P|[P|(k & P1 & P2)]]).
    + lia.
    + unfold combine, dt_time, DAY in *. lia.
    + eapply NOSTART; eauto.
  - intros [s e] H. cbn [fst]. destruct (PARTS s e (or_intror H)) as (_ & _ & [P|[P|(k & P1 & P2)]]).
    + specialize (LOW _ H). cbn [fst] in LOW. lia.
    + exact P.
    + exfalso. eapply NOSTART; eauto.
  - destruct (last_snd_in r (combine D0 0) e1) as [s' HS]. destruct (PARTS _ _ HS) as (_ & P & _).
    destruct (COV (K - 1) ltac:(lia)) as (a & b & AB & T). replace (K - 1 + 1) with K in T by lia.
    pose proof (gapped_last r _ _ G WF (a, b) AB) as Q. cbn [snd] in Q. lia.
Qed.

Lemma get_free_eq F evs atts begins ends tb te m l : evs_ok evs -> dt_ok begins = true -> dt_ok ends = true ->
  begins < ends -> window_ok tb te -> dt_time begins <= tb -> dt_time ends = 0 ->
  get_free F evs atts begins ends tb te m = Ok l ->
  exists s1 e1 r, get_blocked F evs atts begins ends tb te = Ok ((s1, e1) :: r)
    /\ l = filter (fun x => long_enough m (snd x - fst x)) (gaps e1 r)
    /\ s1 <= begins /\ begins <= e1 /\ last (map snd r) e1 = ends.
Proof.
  intros OK OB OE BE W TB TE E. unfold get_free in E.
  destruct (get_blocked F evs atts begins ends tb te) as [bl| |] eqn:BL; try discriminate. cbn [rbind] in E.
  destruct (get_blocked_form _ _ _ _ _ _ _ _ OK OB OE W BL) as [G WF].
  destruct (blocked_shape _ _ _ _ _ _ _ _ OK OB OE BE W BL) as (e1 & r & -> & H1 & H2 & H3).
  set (D0 := dt_date begins) in *. destruct W as [W1 W2].
  assert (B' : (if begins <? combine D0 tb then combine D0 tb else begins) = combine D0 tb).
  { destruct (begins <? combine D0 tb) eqn:L; [reflexivity|]. subst D0. unfold combine, dt_time, dt_date, DAY in *. lia. }
  assert (E' : (if combine (dt_date ends) te <? ends then combine (dt_date ends) te else ends) = ends).
  { destruct (combine (dt_date ends) te <? ends) eqn:L; [|reflexivity]. unfold combine, dt_time, dt_date, DAY in *. lia. }
  rewrite B', E' in E.
  assert (LAST : last (map snd r) e1 = ends).
  { rewrite H3. unfold combine, dt_time, dt_date, DAY in *. lia. }
  exists (combine D0 0), e1, r. split; [reflexivity|]. split.
  - cbn [free_loop] in E.
    assert (SKIP : (tb <=? dt_time (combine D0 0)) && negb (combine D0 tb =? combine D0 0) = false).
    { unfold combine, dt_time, DAY in *. lia. }
    rewrite SKIP in E. cbn [andb app] in E. injection E as <-.
    rewrite (free_loop_eq tb m ends r _ e1 G H2). cbv zeta. rewrite LAST, Z.eqb_refl. cbn [negb andb]. now rewrite app_nil_r.
  - split; [|split; [|exact LAST]]; subst D0; unfold combine, dt_time, dt_date, DAY in *; lia.
Qed.

Lemma get_free_exact F evs atts begins ends tb te l : evs_ok evs -> dt_ok begins = true -> dt_ok ends = true ->
  begins < ends -> window_ok tb te -> dt_time begins <= tb -> dt_time ends = 0 ->
  get_free F evs atts begins ends tb te None = Ok l ->
  Forall nonempty l /\ ordered l
  /\ (forall x, In x l -> begins <= fst x /\ snd x <= ends)
  /\ (forall t, covers l t <-> begins <= t < ends /\ ~ outside tb te t /\ ~ busy evs atts t).
Proof.
  intros OK OB OE BE W TB TE E.
  destruct (get_free_eq _ _ _ _ _ _ _ _ _ OK OB OE BE W TB TE E) as (s1 & e1 & r & BL & EQ & S1 & E1 & LAST).
  destruct (get_blocked_form _ _ _ _ _ _ _ _ OK OB OE W BL) as [G WF].
  assert (EQ' : l = gaps e1 r).
  { rewrite EQ. cbn [long_enough]. clear. induction (gaps e1 r) as [|x q IH]; [reflexivity|]. cbn. now rewrite IH. }
  rewrite EQ'. clear EQ EQ' E.
  destruct (gaps_spec r s1 e1 G WF) as (I1 & _ & I3 & I4).
  assert (NIL : forall x, In x (gaps e1 r) -> snd x <= ends).
  { intros x Hx. destruct (Z_le_gt_dec (snd x) ends) as [L|L]; [exact L|exfalso].
    rewrite Forall_forall in I1. specialize (I1 x Hx). unfold nonempty in I1.
    assert (C : covers (gaps e1 r) (Z.max (fst x) (snd x - 1))).
    { exists (fst x), (snd x). split; [destruct x; exact Hx|lia]. }
    apply I4 in C as (_ & (y & Y1 & Y2) & _).
    pose proof (gapped_last r _ _ G WF y Y1) as Q. rewrite LAST in Q.
    rewrite Forall_forall in WF. specialize (WF y Y1). unfold wf in WF. lia. }
  split; [exact I1|]. split; [apply gaps_ordered; now inversion WF|]. split.
  - intros x Hx. specialize (I3 x Hx). specialize (NIL x Hx). lia.
  - intros t. rewrite I4. split.
    + intros (T1 & (y & Y1 & Y2) & NC).
      pose proof (gapped_last r _ _ G WF y Y1) as Q. rewrite LAST in Q.
      assert (WY : wf y) by (rewrite Forall_forall in WF; auto). unfold wf in WY.
      assert (T : begins <= t < ends) by lia. split; [exact T|].
      pose proof (get_blocked_exact _ _ _ _ _ _ _ _ OK OB OE W BL t T) as EX. rewrite covers_cons in EX.
      assert (~ (s1 <= t < e1)) by lia. tauto.
    + intros (T & NO & NB).
      pose proof (get_blocked_exact _ _ _ _ _ _ _ _ OK OB OE W BL t T) as EX. rewrite covers_cons in EX.
      assert (NC : ~ covers r t) by tauto. assert (T1 : e1 <= t) by (assert (~ (s1 <= t < e1)) by tauto; lia).
      split; [exact T1|]. split; [|exact NC].
      destruct (last_snd_in r s1 e1) as [s' HS]. rewrite LAST in HS. exists (s', ends). split; [exact HS|]. cbn [fst].
      destruct HS as [HS|HS]; [injection HS as -> ->; lia|].
      destruct (Z_lt_le_dec t s') as [L|L]; [exact L|exfalso]. apply NC. exists s', ends. split; [exact HS|lia].
Qed.

(** ** minimal duration *)
Lemma free_loop_minimal tb m ends : forall bl last,
  free_loop tb (Some m) ends last bl
  = filter (fun x => m <=? snd x - fst x) (free_loop tb None ends last bl).
Proof.
  induction bl as [|[s e] r IH]; intros last; cbn [free_loop long_enough].
  - rewrite andb_true_r. destruct (negb (last =? ends)); cbn [andb filter fst snd]; [|reflexivity].
    destruct (m <=? ends - last); reflexivity.
  - rewrite andb_true_r. rewrite filter_app, <- IH. f_equal.
    destruct ((tb <=? dt_time s) && negb (last =? s)); cbn [andb filter fst snd]; [|reflexivity].
    destruct (m <=? s - last); reflexivity.
Qed.

Lemma get_free_minimal F evs atts begins ends tb te m :
  get_free F evs atts begins ends tb te (Some m)
  = let* l := get_free F evs atts begins ends tb te None in Ok (filter (fun x => m <=? snd x - fst x) l).
Proof.
  unfold get_free. destruct (get_blocked F evs atts begins ends tb te) as [bl| |]; cbn [rbind]; try reflexivity.
  now rewrite free_loop_minimal.
Qed.

(** ** monotonicity *)
Lemma busy_mono evs a1 a2 t : incl a1 a2 -> busy evs a1 t -> busy evs a2 t.
Proof. intros H (i & e & H1 & H2). exists i, e. split; [now apply H|exact H2]. Qed.

(** ** order and repetition of the attendees *)
Lemma dedup_nodup l : NoDup (dedup_pairs l).
Proof.
  induction l as [|a l IH]; [constructor|]. cbn [dedup_pairs].
  destruct (existsb (pair_eqb a) (dedup_pairs l)) eqn:E; [exact IH|]. constructor; [|exact IH].
  intros H. assert (existsb (pair_eqb a) (dedup_pairs l) = true); [|congruence].
  apply existsb_exists. exists a. split; [exact H|]. now apply pair_eqb_eq.
Qed.

Lemma rconcat_same {A B} (f : A -> res (list B)) l1 l2 o1 o2 :
  (forall x, In x l1 <-> In x l2) -> rconcat_map f l1 = Ok o1 -> rconcat_map f l2 = Ok o2 ->
  forall y, In y o1 <-> In y o2.
Proof.
  intros H E1 E2 y. rewrite (rconcat_in _ _ _ E1), (rconcat_in _ _ _ E2).
  split; intros (x & yo & X1 & X2); exists x, yo; (split; [now apply H|exact X2]).
Qed.

Lemma get_blocked_same F evs a1 a2 begins ends tb te l1 : (forall x, In x a1 <-> In x a2) ->
  get_blocked F evs a1 begins ends tb te = Ok l1 -> get_blocked F evs a2 begins ends tb te = Ok l1.
Proof.
  intros H E. unfold get_blocked in *.
  destruct (rconcat_map _ a1) as [b1| |] eqn:B1; try discriminate.
  destruct (rconcat_ok (fun a =>
      let* occs := get_occurrences_segmented F evs (Some begins, Some ends)
                     (Some (mk_criteria (AMany [a]) None None None None)) in
      rconcat_map (blocked_of a begins ends tb te) occs) a2) as [b2 B2].
  { intros a Ha. apply H in Ha. destruct (rconcat_all _ _ _ B1 a Ha) as [y Y]. eauto. }
  rewrite B2. cbn [rbind] in *.
  destruct (if dt_time ends =? 0 then date_add (dt_date ends) (-1) else Ok (dt_date ends)) as [k| |]; try discriminate.
  cbn [rbind] in *. destruct (night_blocks _ tb te (dt_date begins) k) as [nb| |]; try discriminate. cbn [rbind] in *.
  assert (Q : remove_overlaps (dedup_pairs b2 ++ nb) = remove_overlaps (dedup_pairs b1 ++ nb)).
  { apply remove_overlaps_perm, Permutation.Permutation_app_tail, Permutation.NoDup_Permutation; try apply dedup_nodup.
    intros x. rewrite !dedup_in. symmetry. revert x. apply (rconcat_same _ _ _ _ _ H B1 B2). }
  now rewrite Q.
Qed.

Lemma get_free_same F evs a1 a2 begins ends tb te m l1 : (forall x, In x a1 <-> In x a2) ->
  get_free F evs a1 begins ends tb te m = Ok l1 -> get_free F evs a2 begins ends tb te m = Ok l1.
Proof.
  intros H E. unfold get_free in *. destruct (get_blocked F evs a1 begins ends tb te) as [b| |] eqn:B; try discriminate.
  now rewrite (get_blocked_same _ _ _ a2 _ _ _ _ _ H B).
Qed.

(** ** periods that end after the window closes *)
Lemma get_free_eq2 F evs atts begins ends tb te m l : evs_ok evs -> dt_ok begins = true -> dt_ok ends = true ->
  begins < ends -> window_ok tb te -> dt_time begins <= tb -> te <= dt_time ends -> 0 < dt_time ends -> 0 <= m ->
  get_free F evs atts begins ends tb te (Some m) = Ok l ->
  exists s1 e1 r, get_blocked F evs atts begins ends tb te = Ok ((s1, e1) :: r)
    /\ l = filter (fun x => m <=? snd x - fst x) (gaps e1 r)
    /\ s1 <= begins /\ begins <= e1 /\ last (map snd r) e1 = combine (dt_date ends + 1) 0.
Proof.
  intros OK OB OE BE W TB TE TP M0 E. unfold get_free in E.
  destruct (get_blocked F evs atts begins ends tb te) as [bl| |] eqn:BL; try discriminate. cbn [rbind] in E.
  destruct (get_blocked_form _ _ _ _ _ _ _ _ OK OB OE W BL) as [G WF].
  destruct (blocked_shape _ _ _ _ _ _ _ _ OK OB OE BE W BL) as (e1 & r & -> & H1 & H2 & H3).
  set (D0 := dt_date begins) in *. destruct W as [W1 W2].
  assert (B' : (if begins <? combine D0 tb then combine D0 tb else begins) = combine D0 tb).
  { destruct (begins <? combine D0 tb) eqn:L; [reflexivity|]. subst D0. unfold combine, dt_time, dt_date, DAY in *. lia. }
  assert (E' : (if combine (dt_date ends) te <? ends then combine (dt_date ends) te else ends) = combine (dt_date ends) te).
  { destruct (combine (dt_date ends) te <? ends) eqn:L; [reflexivity|]. unfold combine, dt_time, dt_date, DAY in *. lia. }
  rewrite B', E' in E.
  assert (LAST : last (map snd r) e1 = combine (dt_date ends + 1) 0).
  { rewrite H3. unfold combine, dt_time, dt_date, DAY in *. lia. }
  exists (combine D0 0), e1, r. split; [reflexivity|]. split.
  - cbn [free_loop] in E.
    assert (SKIP : (tb <=? dt_time (combine D0 0)) && negb (combine D0 tb =? combine D0 0) = false).
    { unfold combine, dt_time, DAY in *. lia. }
    rewrite SKIP in E. cbn [andb app] in E. injection E as <-.
    rewrite (free_loop_eq tb (Some m) _ r _ e1 G H2). cbv zeta. rewrite LAST. cbn [long_enough].
    replace (m <=? combine (dt_date ends) te - combine (dt_date ends + 1) 0) with false by (unfold combine, DAY in *; lia).
    rewrite andb_false_r. now rewrite app_nil_r.
  - split; [|split; [|exact LAST]]; subst D0; unfold combine, dt_time, dt_date, DAY in *; lia.
Qed.

(** the free periods of a query, before those that are too short are dropped *)
Definition free_spec (evs : list event) (atts : list attendee) (begins ends tb te : Z) (G : list (Z * Z)) : Prop :=
  Forall nonempty G /\ ordered G
  /\ (forall x, In x G -> begins <= fst x /\ snd x <= ends)
  /\ (forall t, covers G t <-> begins <= t < ends /\ ~ outside tb te t /\ ~ busy evs atts t).

Lemma gaps_exact2 F evs atts begins ends tb te s1 e1 r : evs_ok evs -> dt_ok begins = true -> dt_ok ends = true ->
  begins < ends -> window_ok tb te -> te <= dt_time ends -> 0 < dt_time ends ->
  get_blocked F evs atts begins ends tb te = Ok ((s1, e1) :: r) ->
  s1 <= begins -> begins <= e1 -> last (map snd r) e1 = combine (dt_date ends + 1) 0 ->
  free_spec evs atts begins ends tb te (gaps e1 r).
Proof.
  intros OK OB OE BE W TE TP BL S1 E1 LAST.
  destruct (get_blocked_form _ _ _ _ _ _ _ _ OK OB OE W BL) as [G WF].
  destruct (gaps_spec r s1 e1 G WF) as (I1 & _ & I3 & I4).
  (* after the end the rest of the day is blocked *)
  assert (NIGHT : forall t, ends <= t < combine (dt_date ends + 1) 0 -> covers ((s1, e1) :: r) t).
  { intros t T. destruct (get_blocked_inv _ _ _ _ _ _ _ _ OK OB OE W BL) as (bl & nb & -> & _ & _ & N).
    apply remove_overlaps_covers, covers_app. right.
    exists (combine (dt_date ends) te), (combine (dt_date ends + 1) 0). split.
    - apply N. exists (dt_date ends). split; [unfold dt_date, dt_time, DAY in *; lia|auto].
    - destruct W. unfold combine, dt_date, dt_time, DAY in *. lia. }
  assert (EXACT : forall t, covers (gaps e1 r) t <-> begins <= t < ends /\ ~ outside tb te t /\ ~ busy evs atts t).
  { intros t. rewrite I4. split.
    - intros (T1 & (y & Y1 & Y2) & NC).
      pose proof (gapped_last r _ _ G WF y Y1) as Q. rewrite LAST in Q.
      assert (WY : wf y) by (rewrite Forall_forall in WF; auto). unfold wf in WY.
      destruct (Z_lt_le_dec t ends) as [TE'|TE'].
      2:{ exfalso. specialize (NIGHT t ltac:(lia)). apply covers_cons in NIGHT as [C|C]; [lia|contradiction]. }
      assert (T : begins <= t < ends) by lia. split; [exact T|].
      pose proof (get_blocked_exact _ _ _ _ _ _ _ _ OK OB OE W BL t T) as EX. rewrite covers_cons in EX.
      assert (~ (s1 <= t < e1)) by lia. tauto.
    - intros (T & NO & NB).
      pose proof (get_blocked_exact _ _ _ _ _ _ _ _ OK OB OE W BL t T) as EX. rewrite covers_cons in EX.
      assert (NC : ~ covers r t) by tauto. assert (T1 : e1 <= t) by (assert (~ (s1 <= t < e1)) by tauto; lia).
      split; [exact T1|]. split; [|exact NC].
      destruct (last_snd_in r s1 e1) as [s' HS]. rewrite LAST in HS. exists (s', combine (dt_date ends + 1) 0).
      split; [exact HS|]. cbn [fst].
      assert (t < combine (dt_date ends + 1) 0) by (unfold combine, dt_date, DAY in *; lia).
      destruct HS as [HS|HS]; [injection HS as -> ->; lia|].
      destruct (Z_lt_le_dec t s') as [L|L]; [exact L|exfalso]. apply NC.
      exists s', (combine (dt_date ends + 1) 0). split; [exact HS|lia]. }
  split; [exact I1|]. split; [apply gaps_ordered; now inversion WF|]. split; [|exact EXACT].
  intros x Hx. split; [specialize (I3 x Hx); lia|].
  rewrite Forall_forall in I1. specialize (I1 x Hx). unfold nonempty in I1.
  assert (C : covers (gaps e1 r) (snd x - 1)) by (exists (fst x), (snd x); split; [destruct x; exact Hx|lia]).
  apply EXACT in C as (C & _). lia.
Qed.

Lemma get_free_exact2 F evs atts begins ends tb te m l : evs_ok evs -> dt_ok begins = true -> dt_ok ends = true ->
  begins < ends -> window_ok tb te -> dt_time begins <= tb -> te <= dt_time ends -> 0 < dt_time ends -> 0 <= m ->
  get_free F evs atts begins ends tb te (Some m) = Ok l ->
  exists G, free_spec evs atts begins ends tb te G /\ l = filter (fun x => m <=? snd x - fst x) G.
Proof.
  intros OK OB OE BE W TB TE TP M0 E.
  destruct (get_free_eq2 _ _ _ _ _ _ _ _ _ OK OB OE BE W TB TE TP M0 E) as (s1 & e1 & r & BL & EQ & S1 & E1 & LAST).
  exists (gaps e1 r). split; [|exact EQ]. eapply gaps_exact2; eauto.
Qed.

(** ** free periods are maximal when every event takes some time *)
Lemma gapped_sep l0 : gapped l0 -> Forall wf l0 -> forall x y, In x l0 -> In y l0 -> fst x < fst y -> snd x < fst y.
Proof.
  induction l0 as [|z l0 IH]; intros G W x y Hx Hy L; [destruct Hx|].
  pose proof (gapped_lower l0 z G W) as LW. rewrite Forall_forall in LW.
  inversion W as [|? ? Wz W']; subst. unfold wf in Wz.
  destruct Hx as [<-|Hx], Hy as [<-|Hy].
  - lia.
  - now apply LW.
  - specialize (LW x Hx). lia.
  - apply IH; auto. now apply gapped_tail in G.
Qed.

Lemma gapped_same_start l : gapped l -> Forall wf l -> forall x y, In x l -> In y l -> fst x = fst y -> x = y.
Proof.
  induction l as [|z l IH]; intros G W x y Hx Hy E; [destruct Hx|].
  pose proof (gapped_lower l z G W) as LW. rewrite Forall_forall in LW.
  inversion W as [|? ? Wz W']; subst. unfold wf in Wz.
  destruct Hx as [<-|Hx], Hy as [<-|Hy]; auto.
  - specialize (LW y Hy). lia.
  - specialize (LW x Hx). lia.
  - apply IH; auto. now apply gapped_tail in G.
Qed.


Lemma blocked_tail_nonempty F evs atts begins ends tb te s1 e1 r : evs_ok evs -> dt_ok begins = true -> dt_ok ends = true ->
  begins < ends -> window_ok tb te -> positive evs ->
  get_blocked F evs atts begins ends tb te = Ok ((s1, e1) :: r) ->
  forall x, In x r -> fst x < snd x.
Proof.
  intros OK OB OE BE W PO E [s e] Hx. cbn [fst snd].
  destruct (get_blocked_form _ _ _ _ _ _ _ _ OK OB OE W E) as [G WF].
  destruct (blocked_shape _ _ _ _ _ _ _ _ OK OB OE BE W E) as (e1' & r' & EQ1 & H1 & H2 & _).
  injection EQ1 as -> <- <-.
  destruct (get_blocked_inv _ _ _ _ _ _ _ _ OK OB OE W E) as (bl & nb & EQ & BL & _ & N).
  assert (WX : wf (s, e)) by (rewrite Forall_forall in WF; apply WF; now right). unfold wf in WX. cbn in WX.
  destruct (Z.eq_dec s e) as [<-|NE]; [exfalso|lia].
  set (D0 := dt_date begins) in *. set (K := dt_date (ends + DAY - 1)) in *.
  assert (NCOV : ~ covers ((combine D0 0, e1) :: r) s).
  { intros (a & b & AB & T). destruct (Z.eq_dec a s) as [->|NA].
    - pose proof (gapped_same_start _ G WF (s, b) (s, s) AB (or_intror Hx) eq_refl) as Q. injection Q as ->. lia.
    - pose proof (gapped_sep _ G WF (a, b) (s, s) AB (or_intror Hx)) as Q. cbn in Q. lia. }
  assert (NPREV : ~ covers ((combine D0 0, e1) :: r) (s - 1)).
  { intros (a & b & AB & T).
    pose proof (gapped_sep _ G WF (a, b) (s, s) AB (or_intror Hx)) as Q. cbn in Q. lia. }
  assert (IN : In (s, s) (remove_overlaps (dedup_pairs bl ++ nb))) by (rewrite <- EQ; now right).
  apply remove_overlaps_parts in IN as [[e' IN] _]. rewrite EQ, remove_overlaps_covers in NCOV, NPREV.
  assert (COV : forall t a b, In (a, b) nb -> a <= t < b -> covers (dedup_pairs bl ++ nb) t).
  { intros t a b AB T. apply covers_app. right. exists a, b. auto. }
  assert (FIRST : combine D0 0 < s).
  { pose proof (gapped_lower r _ G WF) as LOW. rewrite Forall_forall in LOW. specialize (LOW _ Hx). cbn in LOW.
    inversion WF as [|? ? WF1 _]; subst. unfold wf in WF1. cbn in WF1. lia. }
  specialize (H2 _ Hx). cbn [fst] in H2. destruct W as [W1 W2].
  (* a midnight inside the period follows a blocked evening *)
  assert (MID : forall k, D0 < k -> k <= K -> s <> combine k 0).
  { intros k Hk Hk' ->. apply NPREV. apply (COV _ (combine (k - 1) te) (combine (k - 1 + 1) 0)).
    - apply N. exists (k - 1). split; [lia|auto].
    - unfold combine, DAY in *. lia. }
  apply in_app_iff in IN as [IN|IN].
  - apply (proj1 (dedup_in _ _)) in IN. destruct (BL _ IN) as (s0 & e0 & X & B1 & B2 & B3 & B4 & B5).
    unfold clipped in X. injection X as -> ->. specialize (B5 PO).
    set (D := dt_date s0) in *.
    assert (DR : D0 <= D < K) by (subst D D0 K; unfold dt_date, DAY in *; lia).
    destruct (Z_lt_le_dec s0 (combine D tb)) as [C|C].
    + rewrite Z.max_r in * by lia. destruct (Z.eq_dec tb 0) as [->|NZ].
      * subst D. unfold combine, dt_date, DAY in *. lia.
      * apply NPREV. apply (COV _ (combine D 0) (combine D tb)).
        -- apply N. exists D. split; [lia|auto].
        -- unfold combine, DAY in *. lia.
    + rewrite Z.max_l in * by lia. destruct (Z_lt_le_dec s0 (combine D te)) as [C2|C2].
      * (* inside the window: the segment is not empty *)
        destruct B5 as [B5|B5].
        -- assert (Z.min e0 (combine D te) <= s0).
           { destruct (Z_le_gt_dec (Z.min e0 (combine D te)) s0) as [L|L]; [exact L|exfalso].
             apply NCOV. apply covers_app. left. apply dedup_covers. eexists. eexists. split; [exact IN|]. lia. }
           lia.
        -- apply (MID D); [|lia|]; subst D; unfold combine, dt_date, dt_time, DAY in *; lia.
      * apply NCOV. apply (COV _ (combine D te) (combine (D + 1) 0)).
        -- apply N. exists D. split; [lia|auto].
        -- subst D. unfold combine, dt_date, DAY in *. lia.
  - pose proof IN as IN0. apply N in IN as (k & Hk & [X|X]); injection X as -> ->.
    + destruct (Z.eq_dec k D0) as [->|NK]; [lia|]. apply (MID k); [lia|lia|reflexivity].
    + apply NCOV. apply (COV _ _ _ IN0). unfold combine, DAY in *. lia.
Qed.

(** with no event of zero length, free periods never touch each other: each is as long as possible *)
Lemma get_free_maximal F evs atts begins ends tb te l : evs_ok evs -> dt_ok begins = true -> dt_ok ends = true ->
  begins < ends -> window_ok tb te -> dt_time begins <= tb -> dt_time ends = 0 -> positive evs ->
  get_free F evs atts begins ends tb te None = Ok l -> gapped l.
Proof.
  intros OK OB OE BE W TB TE PO E.
  destruct (get_free_eq _ _ _ _ _ _ _ _ _ OK OB OE BE W TB TE E) as (s1 & e1 & r & BL & EQ & _).
  destruct (get_blocked_form _ _ _ _ _ _ _ _ OK OB OE W BL) as [G WF].
  assert (EQ' : l = gaps e1 r).
  { rewrite EQ. cbn [long_enough]. clear. induction (gaps e1 r) as [|x q IH]; [reflexivity|]. cbn. now rewrite IH. }
  rewrite EQ'. eapply gaps_gapped; [exact G|exact WF|]. exact (blocked_tail_nonempty _ _ _ _ _ _ _ _ _ _ OK OB OE BE W PO BL).
Qed.

Lemma get_free_maximal2 F evs atts begins ends tb te m l : evs_ok evs -> dt_ok begins = true -> dt_ok ends = true ->
  begins < ends -> window_ok tb te -> dt_time begins <= tb -> te <= dt_time ends -> 0 < dt_time ends -> 0 <= m ->
  positive evs ->
  get_free F evs atts begins ends tb te (Some m) = Ok l ->
  exists G, free_spec evs atts begins ends tb te G /\ gapped G /\ l = filter (fun x => m <=? snd x - fst x) G.
Proof.
  intros OK OB OE BE W TB TE TP M0 PO E.
  destruct (get_free_eq2 _ _ _ _ _ _ _ _ _ OK OB OE BE W TB TE TP M0 E) as (s1 & e1 & r & BL & EQ & S1 & E1 & LAST).
  exists (gaps e1 r). split; [eapply gaps_exact2; eauto|]. split; [|exact EQ].
  destruct (get_blocked_form _ _ _ _ _ _ _ _ OK OB OE W BL) as [G WF].
  eapply gaps_gapped; [exact G|exact WF|]. exact (blocked_tail_nonempty _ _ _ _ _ _ _ _ _ _ OK OB OE BE W PO BL).
Qed.

(** ** any period: the instants of the period that are free *)
Lemma get_free_covers F evs atts begins ends tb te l : evs_ok evs -> dt_ok begins = true -> dt_ok ends = true ->
  begins < ends -> window_ok tb te ->
  get_free F evs atts begins ends tb te None = Ok l ->
  forall t, begins <= t < ends -> (covers l t <-> ~ outside tb te t /\ ~ busy evs atts t).
Proof.
  intros OK OB OE BE W E t T. unfold get_free in E.
  destruct (get_blocked F evs atts begins ends tb te) as [bl| |] eqn:BL; try discriminate. cbn [rbind] in E.
  destruct (get_blocked_form _ _ _ _ _ _ _ _ OK OB OE W BL) as [G WF].
  pose proof (get_blocked_exact _ _ _ _ _ _ _ _ OK OB OE W BL t T) as EX.
  destruct (blocked_shape _ _ _ _ _ _ _ _ OK OB OE BE W BL) as (e1 & r & -> & H1 & H2 & H3).
  set (D0 := dt_date begins) in *. destruct W as [W1 W2].
  set (b' := if begins <? combine D0 tb then combine D0 tb else begins) in *.
  set (ends' := if combine (dt_date ends) te <? ends then combine (dt_date ends) te else ends) in *.
  assert (B' : combine D0 0 <= b').
  { subst b' D0. destruct (begins <? combine (dt_date begins) tb); unfold combine, dt_date, DAY in *; clear -W1; idtac; [lia|]. lia. }
  assert (E' : ends' <= ends) by (unfold ends'; destruct (combine (dt_date ends) te <? ends) eqn:Q; [apply Z.ltb_lt in Q|]; lia).
  cbn [free_loop long_enough] in E. injection E as <-.
  rewrite (free_loop_eq tb None ends' r _ e1 G H2). cbv zeta. rewrite !covers_app, H3. cbn [long_enough].
  assert (C1 : ~ covers (if (tb <=? dt_time (combine D0 0)) && negb (b' =? combine D0 0) && true
                         then [(b', combine D0 0)] else []) t).
  { destruct ((tb <=? dt_time (combine D0 0)) && negb (b' =? combine D0 0) && true); [|now rewrite covers_nil]. rewrite covers_cons, covers_nil. lia. }
  set (K := dt_date (ends + DAY - 1)) in *.
  assert (KE : ends <= combine K 0) by (subst K; unfold combine, dt_date, DAY in *; lia).
  assert (C3 : ~ covers (if negb (combine K 0 =? ends') && true then [(combine K 0, ends')] else []) t).
  { destruct (negb (combine K 0 =? ends') && true); [|now rewrite covers_nil]. rewrite covers_cons, covers_nil. lia. }
  assert (FT : filter (fun x : Z * Z => true) (gaps e1 r) = gaps e1 r).
  { clear. induction (gaps e1 r) as [|x q IH]; [reflexivity|]. cbn. now rewrite IH. }
  rewrite FT. destruct (gaps_spec r (combine D0 0) e1 G WF) as (_ & _ & _ & I4). rewrite I4.
  rewrite covers_cons in EX.
  assert (S1 : combine D0 0 <= t) by (subst D0; unfold combine, dt_date, DAY in *; lia).
  split.
  - intros [C|[(T1 & _ & NC)|C]]; try contradiction. assert (~ (combine D0 0 <= t < e1)) by lia. tauto.
  - intros (NO & NB). right; left.
    assert (NC : ~ covers r t) by tauto.
    assert (T1 : e1 <= t) by (assert (~ (combine D0 0 <= t < e1)) by tauto; lia).
    split; [exact T1|]. split; [|exact NC].
    destruct (last_snd_in r (combine D0 0) e1) as [s' HS]. rewrite H3 in HS. exists (s', combine K 0). split; [exact HS|]. cbn [fst].
    destruct HS as [HS|HS]; [assert (e1 = combine K 0) by congruence; lia|].
    destruct (Z_lt_le_dec t s') as [L|L]; [exact L|exfalso]. apply NC. exists s', (combine K 0). split; [exact HS|lia].
Qed.

(** ** the calendar's queries *)
Definition involves (e : event) (atts : list attendee) : Prop :=
  exists i st, In (Some i) atts /\ attends e i st.

(** the criteria, with the calendar's attendees *)
Definition narrowed (c : option criteria) (atts : list attendee) : criteria :=
  let c := the_criteria c in mkCrit (Some atts) (c_status c) (c_role c) (c_categories c) (c_organizer c).

Definition no_attendees (c : option criteria) : Prop :=
  match c with None => True | Some c => c_attendees c = None \/ c_attendees c = Some [] end.

(** no empty list, no empty string among the criteria: these count as unset when cloning *)
Definition plain (c : criteria) : Prop :=
  c_status c <> Some ""%string /\ c_role c <> Some ""%string /\ c_categories c <> Some [].

Lemma clone_fields c a st ro cats org :
  let c' := clone c a st ro cats org in
  (c_attendees c' = match c_attendees c with Some (_ :: _) => c_attendees c | _ => norm_attendees a end)
  /\ (c_status c' = match c_status c with Some (String _ _) => c_status c | _ => st end)
  /\ (c_role c' = match c_role c with Some (String _ _) => c_role c | _ => ro end)
  /\ (c_categories c' = match c_categories c with Some (_ :: _) => c_categories c | _ => cats end)
  /\ (c_organizer c' = match c_organizer c with Some _ => c_organizer c | _ => org end).
Proof. repeat split. Qed.

Lemma restrict_narrowed c atts : no_attendees c -> (forall c', c = Some c' -> plain c') ->
  restrict_attendees c atts = narrowed c atts.
Proof.
  destruct c as [c|]; [|reflexivity]. intros N P. destruct (P c eq_refl) as (P1 & P2 & P3).
  destruct c as [ca cs cr cc co]. cbn in *. unfold clone, narrowed; cbn. f_equal.
  - destruct N as [-> | ->]; reflexivity.
  - destruct cs as [[|]|]; [congruence|reflexivity|reflexivity].
  - destruct cr as [[|]|]; [congruence|reflexivity|reflexivity].
  - destruct cc as [[|]|]; [congruence|reflexivity|reflexivity].
  - destruct co; reflexivity.
Qed.

Lemma narrowed_involves c atts e : satisfies (narrowed c atts) e -> involves e atts.
Proof. intros (_ & _ & H). destruct (H atts eq_refl) as (i & st & H1 & H2 & _). exists i, st. auto. Qed.

Lemma narrowed_none e atts : satisfies (narrowed None atts) e <-> involves e atts.
Proof.
  split; [apply narrowed_involves|]. intros (i & st & H1 & H2). split; [discriminate|]. split; [discriminate|].
  intros l E. cbn in E. injection E as <-. exists i, st. split; [exact H1|]. split; [exact H2|]. split; discriminate.
Qed.

Lemma restrict_involves c atts e : no_attendees c ->
  satisfies (restrict_attendees c atts) e -> involves e atts.
Proof.
  intros N (_ & _ & H). destruct c as [c|].
  - destruct (H atts) as (i & st & H1 & H2 & _); [|exists i, st; auto].
    cbn. destruct N as [-> | ->]; reflexivity.
  - destruct (H atts eq_refl) as (i & st & H1 & H2 & _). exists i, st. auto.
Qed.

Lemma calendar_events_involve evs atts p c l : no_attendees c -> calendar_events evs atts p c = Ok l ->
  forall e, In e l -> In e evs /\ involves e atts.
Proof.
  intros N E e He. unfold calendar_events, get_events in E.
  destruct (matching_events evs (Some (restrict_attendees c atts))) as [m| |] eqn:M; try discriminate. cbn [rbind] in E.
  apply (rfilter_in _ _ _ E) in He as [He _]. apply (matching_in _ _ _ M) in He as [H1 H2].
  split; [exact H1|]. now apply restrict_involves in H2.
Qed.

Lemma calendar_events_exact evs atts p c l : no_attendees c -> (forall c', c = Some c' -> plain c') ->
  calendar_events evs atts p c = Ok l ->
  forall e d, e_duration e = Some d ->
  (In e l <-> In e evs /\ satisfies (narrowed c atts) e /\ touches (e_dtstart e) d p).
Proof.
  intros N P E e d D. unfold calendar_events in E. rewrite (restrict_narrowed c atts N P) in E.
  now rewrite (get_events_in _ _ _ _ E e d D).
Qed.

Lemma calendar_occurrences_involve F evs atts b pe c l : evs_ok evs -> no_attendees c ->
  calendar_occurrences F evs atts (Some b, Some pe) c = Ok l ->
  forall o, In o l -> In (o_original o) evs /\ involves (o_original o) atts.
Proof.
  intros OK N E o Ho. apply (get_occurrences_in _ _ _ _ _ _ OK E) in Ho as (e & t & d & H1 & H2 & _ & -> & _).
  cbn. split; [exact H1|]. now apply restrict_involves in H2.
Qed.

(** ** a day of a calendar *)
Lemma day_period_eq D : 1 <= D < MAXORD -> day_period D = Ok (Some (combine D 0), Some (combine (D + 1) 0)).
Proof.
  intros H. unfold day_period, dt_add. replace (dt_ok (combine D 0 + DAY)) with true
    by (unfold dt_ok, combine, DAY, MAXORD in *; lia). cbn [rbind].
  replace (combine D 0 + DAY) with (combine (D + 1) 0) by (unfold combine, DAY; lia). reflexivity.
Qed.

Lemma day_period_inv D p : day_period D = Ok p -> p = (Some (combine D 0), Some (combine (D + 1) 0))
  /\ dt_ok (combine (D + 1) 0) = true.
Proof.
  unfold day_period, dt_add. replace (combine D 0 + DAY) with (combine (D + 1) 0) by (unfold combine, DAY; lia).
  destruct (dt_ok (combine (D + 1) 0)); [|discriminate]. cbn [rbind]. intros E. split; [congruence|reflexivity].
Qed.

Lemma events_in_day_exact evs atts D l : calendar_events_in_day evs atts D None = Ok l ->
  forall e d, e_duration e = Some d -> 0 < d ->
  (In e l <-> In e evs /\ involves e atts /\ exists t, dt_date t = D /\ e_dtstart e <= t < e_dtstart e + d).
Proof.
  intros E e d De Pd. unfold calendar_events_in_day in E.
  destruct (day_period D) as [p| |] eqn:DP; try discriminate. cbn [rbind] in E.
  apply day_period_inv in DP as [-> _].
  rewrite (calendar_events_exact evs atts _ None l I ltac:(discriminate) E e d De). rewrite narrowed_none.
  rewrite touches_instant; [|exact Pd|cbn; unfold combine, DAY; lia].
  unfold after_begin, before_end. cbn [fst snd].
  split; intros (H1 & H2 & t & T); (split; [exact H1|split; [exact H2|exists t]]);
    unfold combine, dt_date, DAY in *; lia.
Qed.

Lemma events_in_day_total evs atts D : (forall e, In e evs -> event_ok e) -> ~ In None atts -> 1 <= D < MAXORD ->
  exists l, calendar_events_in_day evs atts D None = Ok l.
Proof.
  intros OK NN H. unfold calendar_events_in_day. rewrite (day_period_eq D H). cbn [rbind].
  apply get_events_total; [|exact OK]. split; [discriminate|]. intros l E. cbn in E. injection E as <-. exact NN.
Qed.

Lemma occurrences_in_day_exact F evs atts D l : evs_ok evs -> positive evs ->
  calendar_occurrences_in_day F evs atts D None = Ok l ->
  (forall e, (exists o, In o l /\ o_original o = e) <->
     In e evs /\ involves e atts /\ exists t, dt_date t = D /\ happens e t)
  /\ (forall e t, (exists o, In o l /\ o_original o = e /\ occ_covers o t) <->
     In e evs /\ involves e atts /\ dt_date t = D /\ happens e t).
Proof.
  intros OK PO E. unfold calendar_occurrences_in_day, calendar_segmented in E.
  destruct (day_period D) as [p| |] eqn:DP; try discriminate. cbn [rbind] in E.
  apply day_period_inv in DP as [-> OE].
  assert (COV : forall e t, (exists o, In o l /\ o_original o = e /\ occ_covers o t) <->
     In e evs /\ involves e atts /\ dt_date t = D /\ happens e t).
  { intros e t. rewrite (segmented_coverage _ _ _ _ _ _ OK OE E e t).
    rewrite <- (narrowed_none e atts). cbn [the_criteria].
    assert (combine D 0 <= t < combine (D + 1) 0 <-> dt_date t = D) by (unfold combine, dt_date, DAY in *; lia).
    change (narrowed None atts) with (restrict_attendees None atts). tauto. }
  split; [|exact COV].
  intros e. split.
  - intros (o & Ho & Eo).
    assert (NZ : exists d', o_duration o = Some d' /\ 0 < d').
    { unfold get_occurrences_segmented in E.
      destruct (get_occurrences F evs (Some (combine D 0), Some (combine (D + 1) 0)) _) as [occs| |] eqn:G; try discriminate.
      cbn [rbind assert_bounded] in E.
      apply (segments_in _ _ _ _ E) in Ho as (occ & segs & H1 & H2 & H3).
      apply (get_occurrences_in _ _ _ _ _ _ OK G) in H1 as (e' & t0 & d & K1 & _ & K3 & -> & _).
      specialize (PO e' d K1 K3).
      destruct (segment_one_props _ _ (mkOcc t0 (Some d) e') segs d OE eq_refl ltac:(lia) H2) as (_ & P2 & _).
      destruct (P2 o H3) as (Q & d' & Q1 & Q2 & _ & _ & _ & _ & _ & Q8).
      exists d'. split; [exact Q1|]. destruct (Z.eq_dec d' 0) as [Z0|Z0]; [exfalso|lia].
      destruct (Q8 Z0) as (_ & R2 & [R3|R3]); [lia|]. cbn [o_dtstart] in *.
      unfold combine, dt_time, DAY in *. lia. }
    destruct NZ as (d' & D1 & D2).
    destruct (proj1 (COV e (o_dtstart o))) as (H1 & H2 & H3 & H4).
    { exists o. split; [exact Ho|]. split; [exact Eo|]. exists d'. split; [exact D1|lia]. }
    split; [exact H1|]. split; [exact H2|]. exists (o_dtstart o). auto.
  - intros (H1 & H2 & t & H3 & H4).
    destruct (proj2 (COV e t)) as (o & O1 & O2 & _); [auto|]. exists o. auto.
Qed.

(** ** organized events *)
Lemma organized_exact evs i c l : match c with None => True | Some c => c_organizer c = None end ->
  (forall c', c = Some c' -> plain c' /\ c_attendees c' <> Some []) ->
  organized_events evs (Some i) c = Ok l ->
  forall e, In e l <-> In e evs /\ e_organizer e = Some i /\ satisfies (the_criteria c) e.
Proof.
  intros N P E e. unfold organized_events in E. rewrite (get_events_unbounded _ _ _ E e).
  destruct c as [c|]; unfold the_criteria.
  - destruct (P c eq_refl) as ((P1 & P2 & P3) & P4). destruct c as [ca cs cr cc co]. cbn in N, P1, P2, P3, P4. subst co.
    assert (Q : clone (mkCrit ca cs cr cc None) ANone None None None (Some (Some i : attendee)) = mkCrit ca cs cr cc (Some (Some i : attendee))).
    { unfold clone; cbn. f_equal.
      - destruct ca as [[|]|]; [congruence|reflexivity|reflexivity].
      - destruct cs as [[|]|]; [congruence|reflexivity|reflexivity].
      - destruct cr as [[|]|]; [congruence|reflexivity|reflexivity].
      - destruct cc as [[|]|]; [congruence|reflexivity|reflexivity]. }
    match goal with |- context [clone ?a ?b ?c ?d ?e0 ?f] => change (clone a b c d e0 f) with
      (clone (mkCrit ca cs cr cc None) ANone None None None (Some (Some i : attendee))) end.
    rewrite Q. unfold satisfies. cbn. split.
    + intros (H1 & H2 & H3 & H4). split; [exact H1|]. destruct (H3 _ eq_refl) as (j & J & H5). injection J as ->.
      split; [exact H5|]. split; [exact H2|]. split; [discriminate|exact H4].
    + intros (H1 & H2 & H3 & _ & H4). split; [exact H1|]. split; [exact H3|]. split; [|exact H4].
      intros o Ho. injection Ho as <-. eauto.
  - unfold satisfies. cbn. split.
    + intros (H1 & _ & H3 & _). split; [exact H1|]. destruct (H3 _ eq_refl) as (j & J & H5). injection J as ->.
      split; [exact H5|]. split; [discriminate|]. split; discriminate.
    + intros (H1 & H2 & _). split; [exact H1|]. split; [discriminate|]. split; [|discriminate].
      intros o Ho. injection Ho as <-. eauto.
Qed.
