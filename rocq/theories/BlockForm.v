(** What the lists built by getBlockedPeriods look like, whatever the segments entered; the
    statements of BlockProofs.v for any such list. *)
From Verif Require Import Base PyDate DateFacts Recurrent SpecRecur RecurProofs RecurMisc Util UtilProofs
  CalTime TimeProofs Event Storage QueryProofs BlockProofs.
From Coq Require Import ZifyBool.
Ltac Zify.zify_post_hook ::= Z.div_mod_to_equations.
Local Opaque ord2ymd year_of month_of day_of ymd2ord days_in_month is_leap.

(** [l] is made of the clipped segments [bl] and the nights *)
Definition built (begins ends tb te : Z) (bl l : list (Z * Z)) : Prop := exists nb,
    l = remove_overlaps (dedup_pairs bl ++ nb)
    /\ (forall x, In x bl -> exists s e, x = clipped tb te s e /\ begins <= s /\ s <= e <= ends /\ s < ends
          /\ (s < e -> e <= (dt_date s + 1) * DAY))
    /\ (forall x, In x nb <-> exists k, dt_date begins <= k < dt_date (ends + DAY - 1)
          /\ (x = (combine k 0, combine k tb) \/ x = (combine k te, combine (k + 1) 0))).

Lemma built_covers begins ends tb te bl l : window_ok tb te -> built begins ends tb te bl l ->
  forall t, begins <= t < ends -> (covers l t <-> outside tb te t \/ covers bl t).
Proof.
  intros W (nb & -> & _ & N) t T.
  rewrite remove_overlaps_covers, covers_app, dedup_covers.
  rewrite (night_covers nb tb te (dt_date begins) (dt_date (ends + DAY - 1) - 1) t W).
  2:{ intros x. rewrite N. split; intros (k & K1 & K2); exists k; (split; [lia|exact K2]). }
  assert (dt_date begins <= dt_date t <= dt_date (ends + DAY - 1) - 1) by (unfold dt_date, DAY in *; lia).
  tauto.
Qed.

Lemma built_form begins ends tb te bl l : dt_ok begins = true -> dt_ok ends = true ->
  window_ok tb te -> built begins ends tb te bl l ->
  gapped l /\ Forall wf l.
Proof.
  intros OB OE W E. destruct E as (nb & -> & BL & N).
  split; [apply remove_overlaps_gapped|]. apply remove_overlaps_wf. destruct W as [W1 W2].
  intros x Hx. apply in_app_iff in Hx as [Hx|Hx].
  - apply (proj1 (dedup_in _ _)) in Hx. destruct (BL x Hx) as (s & e & -> & B1 & B2 & B3 & B4). unfold wf, hidden, clipped. cbn [fst snd].
    set (D := dt_date s) in *.
    assert (DR : dt_date begins <= D < dt_date (ends + DAY - 1)) by (subst D; unfold dt_date, DAY in *; lia).
    destruct (Z_le_gt_dec (Z.max s (combine D tb)) (Z.min e (combine D te))) as [L|L]; [now left|right].
    destruct (Z_lt_le_dec e (combine D tb)) as [C|C].
    + exists (combine D 0), (combine D tb). split.
      * apply in_app_iff. right. apply N. exists D. auto.
      * subst D. unfold combine, dt_date, DAY in *. lia.
    + exists (combine D te), (combine (D + 1) 0). split.
      * apply in_app_iff. right. apply N. exists D. auto.
      * subst D. unfold combine, dt_date, DAY in *. lia.
  - apply N in Hx as (k & _ & [-> | ->]); left; unfold wf, combine, DAY in *; cbn [fst snd]; lia.
Qed.

Lemma built_overnight begins ends tb te bl l : dt_ok begins = true -> dt_ok ends = true ->
  begins < ends -> window_ok tb te -> te < tb -> built begins ends tb te bl l ->
  l = [(combine (dt_date begins) 0, combine (dt_date (ends + DAY - 1)) 0)].
Proof.
  intros OB OE BE W TT E.
  destruct (built_form _ _ _ _ _ _ OB OE W E) as [G WF].
  destruct E as (nb & EQ & BL & N).
  set (K := dt_date (ends + DAY - 1)) in *. set (D0 := dt_date begins) in *.
  assert (DK : D0 < K) by (subst D0 K; unfold dt_date, DAY in *; lia).
  destruct W as [W1 W2].
  assert (ALL : forall x, In x (dedup_pairs bl ++ nb) -> combine D0 0 <= fst x /\ snd x <= combine K 0).
  { intros x Hx. apply in_app_iff in Hx as [Hx|Hx].
    - apply (proj1 (dedup_in _ _)) in Hx. destruct (BL x Hx) as (s & e & -> & B1 & B2 & B3 & _). unfold clipped. cbn [fst snd].
      split; [subst D0; unfold combine, dt_date, DAY in *; lia|].
      subst K; unfold combine, dt_date, DAY in *; lia.
    - apply N in Hx as (k & Hk & [-> | ->]); cbn [fst snd]; unfold combine, DAY in *; lia. }
  assert (PARTS : forall s e, In (s, e) l -> combine D0 0 <= s /\ e <= combine K 0).
  { intros s e H. rewrite EQ in H. apply remove_overlaps_parts in H as [[e' H1] [s' H2]].
    apply ALL in H1, H2. cbn in *. tauto. }
  assert (COV : forall t, combine D0 0 <= t < combine K 0 -> covers l t).
  { intros t T. rewrite EQ. apply remove_overlaps_covers, covers_app. right.
    assert (D : D0 <= dt_date t < K) by (unfold combine, dt_date, DAY in *; lia).
    destruct (Z_lt_le_dec (dt_time t) tb) as [C|C].
    - exists (combine (dt_date t) 0), (combine (dt_date t) tb). split; [apply N; exists (dt_date t); auto|].
      unfold combine, dt_date, dt_time, DAY in *. lia.
    - exists (combine (dt_date t) te), (combine (dt_date t + 1) 0). split; [apply N; exists (dt_date t); auto|].
      unfold combine, dt_date, dt_time, DAY in *. lia. }
  assert (C0 : combine D0 0 < combine K 0) by (unfold combine, DAY; lia).
  destruct l as [|[s1 e1] r].
  { exfalso. apply (covers_nil (combine D0 0)). apply COV. lia. }
  pose proof (gapped_lower r _ G WF) as LOW. rewrite Forall_forall in LOW. cbn [snd] in LOW.
  inversion WF as [|? ? WF1 WF2]; subst. unfold wf in WF1. cbn [fst snd] in WF1. rewrite Forall_forall in WF2. unfold wf in WF2.
  destruct (PARTS s1 e1 (or_introl eq_refl)) as [P1 P2].
  assert (S1 : s1 = combine D0 0).
  { destruct (COV (combine D0 0) ltac:(lia)) as (a & b & [X|X] & T); [injection X as -> ->; lia|].
    specialize (LOW _ X). cbn [fst] in LOW. lia. }
  assert (E1 : e1 = combine K 0).
  { destruct (Z_lt_le_dec e1 (combine K 0)) as [L|L]; [|lia]. exfalso.
    destruct (COV e1 ltac:(lia)) as (a & b & [X|X] & T); [injection X as -> ->; lia|].
    specialize (LOW _ X). cbn [fst] in LOW. lia. }
  destruct r as [|[a b] r]; [congruence|exfalso].
  specialize (LOW (a, b) (or_introl eq_refl)). specialize (WF2 (a, b) (or_introl eq_refl)). cbn [fst snd] in *.
  destruct (PARTS a b (or_intror (or_introl eq_refl))) as [_ P3]. lia.
Qed.

Lemma built_shape begins ends tb te bl l : dt_ok begins = true -> dt_ok ends = true ->
  begins < ends -> window_ok tb te -> built begins ends tb te bl l ->
  exists e1 r, l = (combine (dt_date begins) 0, e1) :: r
    /\ combine (dt_date begins) tb <= e1
    /\ (forall x, In x r -> tb <= dt_time (fst x))
    /\ last (map snd r) e1 = combine (dt_date (ends + DAY - 1)) 0.
Proof.
  intros OB OE BE W E. destruct (Z_lt_le_dec te tb) as [TT|TT].
  { rewrite (built_overnight _ _ _ _ _ _ OB OE BE W TT E). destruct W as [W1 W2].
    eexists _, _. split; [reflexivity|]. split; [|split; [intros x []|reflexivity]].
    unfold combine, dt_date, DAY in *. lia. }
  destruct (built_form _ _ _ _ _ _ OB OE W E) as [G WF].
  destruct E as (nb & EQ & BL & N).
  set (K := dt_date (ends + DAY - 1)) in *. set (D0 := dt_date begins) in *.
  assert (DK : D0 < K) by (subst D0 K; unfold dt_date, DAY in *; lia).
  destruct W as [W1 W2].
  assert (ALL : forall x, In x (dedup_pairs bl ++ nb) -> combine D0 0 <= fst x /\ snd x <= combine K 0
    /\ (fst x = combine D0 0 \/ tb <= dt_time (fst x) \/ exists k, D0 < k < K /\ fst x = combine k 0)).
  { intros x Hx. apply in_app_iff in Hx as [Hx|Hx].
    - apply (proj1 (dedup_in _ _)) in Hx. destruct (BL x Hx) as (s & e & -> & B1 & B2 & B3 & _). unfold clipped. cbn [fst snd].
      split; [subst D0; unfold combine, dt_date, DAY in *; lia|].
      split; [subst K; unfold combine, dt_date, DAY in *; lia|].
      right; left. unfold combine, dt_time, dt_date, DAY in *. lia.
    - apply N in Hx as (k & Hk & [-> | ->]); cbn [fst snd].
      + split; [unfold combine, DAY; lia|]. split; [unfold combine, DAY in *; lia|].
        destruct (Z.eq_dec k D0) as [->|NE]; [now left|]. right; right. exists k. split; [lia|reflexivity].
      + split; [unfold combine, DAY; lia|]. split; [unfold combine, DAY in *; lia|].
        right; left. unfold combine, dt_time, DAY in *. lia. }
  assert (PARTS : forall s e, In (s, e) l -> combine D0 0 <= s /\ e <= combine K 0
     /\ (s = combine D0 0 \/ tb <= dt_time s \/ exists k, D0 < k < K /\ s = combine k 0)).
  { intros s e H. rewrite EQ in H. apply remove_overlaps_parts in H as [[e' H1] [s' H2]].
    apply ALL in H1, H2. cbn in *. tauto. }
  assert (COV : forall k, D0 <= k < K -> covers l (combine (k + 1) 0 - 1)).
  { intros k Hk. rewrite EQ. apply remove_overlaps_covers, covers_app. right.
    exists (combine k te), (combine (k + 1) 0). split; [apply N; exists k; auto|]. unfold combine, DAY in *. lia. }
  destruct l as [|[s1 e1] r].
  { exfalso. specialize (COV D0 ltac:(lia)). now apply covers_nil in COV. }
  assert (S1 : s1 = combine D0 0).
  { assert (IN : In (combine D0 0, combine D0 tb) (dedup_pairs bl ++ nb)).
    { apply in_app_iff. right. apply N. exists D0. split; [lia|auto]. }
    destruct (PARTS s1 e1 (or_introl eq_refl)) as (P1 & _ & _).
    enough (s1 <= combine D0 0) by lia.
    pose proof (sort_perm (dedup_pairs bl ++ nb)) as SP. pose proof (sort_sorted (dedup_pairs bl ++ nb)) as SS.
    unfold remove_overlaps in EQ. destruct (sort_pairs (dedup_pairs bl ++ nb)) as [|[a b] q] eqn:SQ; [discriminate|].
    destruct (merge_head q a b) as (le' & r' & MH & _). rewrite MH in EQ. injection EQ as -> _ _.
    assert (IN2 : In (combine D0 0, combine D0 tb) ((a, b) :: q)) by (eapply Permutation.Permutation_in; [symmetry; exact SP|exact IN]).
    inversion SS as [|? ? _ FS]; subst. rewrite Forall_forall in FS.
    destruct IN2 as [X|X]; [injection X as -> _; lia|]. specialize (FS _ X). unfold ple in FS. cbn in FS. lia. }
  subst s1.
  pose proof (gapped_lower r _ G WF) as LOW. rewrite Forall_forall in LOW. cbn [snd] in LOW.
  inversion WF as [|? ? WF1 WF2]; subst. unfold wf in WF1. cbn [fst snd] in WF1.
  assert (NOSTART : forall s e k, In (s, e) r -> D0 < k < K -> s = combine k 0 -> False).
  { intros s e k H Hk ->. destruct (COV (k - 1) ltac:(lia)) as (a & b & AB & T).
    replace (k - 1 + 1) with k in T by lia.
    assert (SEP : forall l0, gapped l0 -> Forall wf l0 -> forall x y, In x l0 -> In y l0 -> fst x < fst y -> snd x < fst y).
    { clear. induction l0 as [|z l0 IH]; intros G W x y Hx Hy L; [destruct Hx|].
      pose proof (gapped_lower l0 z G W) as LW. rewrite Forall_forall in LW.
      inversion W as [|? ? Wz W']; subst. unfold wf in Wz.
      destruct Hx as [<-|Hx], Hy as [<-|Hy].
      - lia.
      - now apply LW.
      - specialize (LW x Hx). lia.
      - apply IH; auto. now apply gapped_tail in G. }
    pose proof (SEP _ G WF (a, b) (combine k 0, e) AB (or_intror H)) as Q. cbn [fst snd] in Q. lia. }
  exists e1, r. split; [reflexivity|]. split; [|split].
  - (* the first block reaches the window *)
    destruct (Z.eq_dec tb 0) as [->|NZ]; [exact WF1|].
    assert (C0 : covers ((combine D0 0, e1) :: r) (combine D0 tb - 1)).
    { rewrite EQ. apply remove_overlaps_covers, covers_app. right.
      exists (combine D0 0), (combine D0 tb). split; [apply N; exists D0; split; [lia|auto]|]. unfold combine, DAY in *. lia. }
    apply covers_cons in C0 as [C0|(a & b & AB & C0)]; [lia|exfalso].
    specialize (LOW _ AB). cbn [fst] in LOW.
    destruct (PARTS a b (or_intror AB)) as (_ & _ & [P|[P|(k & P1 & P2)]]).
    + lia.
    + unfold combine, dt_time, DAY in *. lia.
    + eapply NOSTART; eauto.
  - intros [s e] H. cbn [fst]. destruct (PARTS s e (or_intror H)) as (_ & _ & [P|[P|(k & P1 & P2)]]).
    + specialize (LOW _ H). cbn [fst] in LOW. lia.
    + exact P.
    + exfalso. eapply NOSTART; eauto.
  - destruct (last_snd_in r (combine D0 0) e1) as [s' HS]. destruct (PARTS _ _ HS) as (_ & P & _).
    destruct (COV (K - 1) ltac:(lia)) as (a & b & AB & T). replace (K - 1 + 1) with K in T by lia.
    pose proof (gapped_last r _ _ G WF (a, b) AB) as Q. cbn [snd] in Q. lia.
Qed.

(** the free periods for a list of blocked ones, cal.py 226-245 *)
Definition free_of (begins ends tb te : Z) (m : option Z) (bl : list (Z * Z)) : list (Z * Z) :=
  free_loop tb m (if combine (dt_date ends) te <? ends then combine (dt_date ends) te else ends)
    (if begins <? combine (dt_date begins) tb then combine (dt_date begins) tb else begins) bl.

Lemma free_of_eq begins ends tb te m bl B : dt_ok begins = true -> dt_ok ends = true ->
  begins < ends -> window_ok tb te -> dt_time begins <= tb -> dt_time ends = 0 ->
  built begins ends tb te bl B ->
  exists s1 e1 r, B = (s1, e1) :: r
    /\ free_of begins ends tb te m B = filter (fun x => long_enough m (snd x - fst x)) (gaps e1 r)
    /\ s1 <= begins /\ begins <= e1 /\ last (map snd r) e1 = ends.
Proof.
  intros OB OE BE W TB TE BL.
  destruct (built_form _ _ _ _ _ _ OB OE W BL) as [G WF].
  destruct (built_shape _ _ _ _ _ _ OB OE BE W BL) as (e1 & r & -> & H1 & H2 & H3).
  set (D0 := dt_date begins) in *. destruct W as [W1 W2].
  assert (B' : (if begins <? combine D0 tb then combine D0 tb else begins) = combine D0 tb).
  { destruct (begins <? combine D0 tb) eqn:L; [reflexivity|]. subst D0. unfold combine, dt_time, dt_date, DAY in *. lia. }
  assert (E' : (if combine (dt_date ends) te <? ends then combine (dt_date ends) te else ends) = ends).
  { destruct (combine (dt_date ends) te <? ends) eqn:L; [|reflexivity]. unfold combine, dt_time, dt_date, DAY in *. lia. }
  unfold free_of. fold D0. rewrite B', E'.
  assert (LAST : last (map snd r) e1 = ends).
  { rewrite H3. unfold combine, dt_time, dt_date, DAY in *. lia. }
  exists (combine D0 0), e1, r. split; [reflexivity|]. split.
  - cbn [free_loop].
    assert (SKIP : (tb <=? dt_time (combine D0 0)) && negb (combine D0 tb =? combine D0 0) = false).
    { unfold combine, dt_time, DAY in *. lia. }
    rewrite SKIP. cbn [andb app].
    rewrite (free_loop_eq tb m ends r _ e1 G H2). cbv zeta. rewrite LAST, Z.eqb_refl. cbn [negb andb]. now rewrite app_nil_r.
  - split; [|split; [|exact LAST]]; subst D0; unfold combine, dt_time, dt_date, DAY in *; lia.
Qed.

Lemma free_of_exact begins ends tb te bl B : dt_ok begins = true -> dt_ok ends = true ->
  begins < ends -> window_ok tb te -> dt_time begins <= tb -> dt_time ends = 0 ->
  built begins ends tb te bl B ->
  let l := free_of begins ends tb te None B in
  Forall nonempty l /\ ordered l
  /\ (forall x, In x l -> begins <= fst x /\ snd x <= ends)
  /\ (forall t, covers l t <-> begins <= t < ends /\ ~ outside tb te t /\ ~ covers bl t).
Proof.
  intros OB OE BE W TB TE BL l.
  destruct (free_of_eq _ _ _ _ None _ _ OB OE BE W TB TE BL) as (s1 & e1 & r & BQ & EQ & S1 & E1 & LAST).
  fold l in EQ. clearbody l. subst B.
  destruct (built_form _ _ _ _ _ _ OB OE W BL) as [G WF].
  assert (EQ' : l = gaps e1 r).
  { rewrite EQ. cbn [long_enough]. clear. induction (gaps e1 r) as [|x q IH]; [reflexivity|]. cbn. now rewrite IH. }
  rewrite EQ'. clear EQ EQ'.
  destruct (gaps_spec r s1 e1 G WF) as (I1 & _ & I3 & I4).
  assert (NIL : forall x, In x (gaps e1 r) -> snd x <= ends).
  { intros x Hx. destruct (Z_le_gt_dec (snd x) ends) as [L|L]; [exact L|exfalso].
    rewrite Forall_forall in I1. specialize (I1 x Hx). unfold nonempty in I1.
    assert (C : covers (gaps e1 r) (Z.max (fst x) (snd x - 1))).
    { exists (fst x), (snd x). split; [destruct x; exact Hx|lia]. }
    apply I4 in C as (_ & (y & Y1 & Y2) & _).
    pose proof (gapped_last r _ _ G WF y Y1) as Q. rewrite LAST in Q.
    rewrite Forall_forall in WF. specialize (WF y Y1). unfold wf in WF. lia. }
  split; [exact I1|]. split; [apply gaps_ordered; now inversion WF|]. split.
  - intros x Hx. specialize (I3 x Hx). specialize (NIL x Hx). lia.
  - intros t. rewrite I4. split.
    + intros (T1 & (y & Y1 & Y2) & NC).
      pose proof (gapped_last r _ _ G WF y Y1) as Q. rewrite LAST in Q.
      assert (WY : wf y) by (rewrite Forall_forall in WF; auto). unfold wf in WY.
      assert (T : begins <= t < ends) by lia. split; [exact T|].
      pose proof (built_covers _ _ _ _ _ _ W BL t T) as EX. rewrite covers_cons in EX.
      assert (~ (s1 <= t < e1)) by lia. tauto.
    + intros (T & NO & NB).
      pose proof (built_covers _ _ _ _ _ _ W BL t T) as EX. rewrite covers_cons in EX.
      assert (NC : ~ covers r t) by tauto. assert (T1 : e1 <= t) by (assert (~ (s1 <= t < e1)) by tauto; lia).
      split; [exact T1|]. split; [|exact NC].
      destruct (last_snd_in r s1 e1) as [s' HS]. rewrite LAST in HS. exists (s', ends). split; [exact HS|]. cbn [fst].
      destruct HS as [HS|HS]; [injection HS as -> ->; lia|].
      destruct (Z_lt_le_dec t s') as [L|L]; [exact L|exfalso]. apply NC. exists s', ends. split; [exact HS|lia].
Qed.
