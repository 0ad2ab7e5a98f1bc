(** How calls relate to each other: queries over adjoining periods, queries with
    criteria, and importing in another order or in portions (C103-C107). *)
From Verif Require Import Base PyDate DateFacts Recurrent CalTime TimeProofs Event Storage ICal System
  QueryProofs BlockProofs EventProofs SpecProofs SystemProofs StoreProofs IdProofs ImportProofs PropQuery PropEvent PropSystem
  ICalProofs ImportContent ImportTwice PropICal PropImport PropRepeat PropCalendar PropExact PropRound PropAgain PropEdge PropAccept.
From Coq Require Import ZifyBool Permutation.
Ltac Zify.zify_post_hook ::= Z.div_mod_to_equations.
Local Opaque ord2ymd year_of month_of day_of ymd2ord days_in_month is_leap.

(** * C103: queries over adjoining periods *)
(** The occurrences in the whole period are those in its two parts, and the ones
    without length exactly where the parts meet, which neither part has.  Both
    parts have those that are under way there. *)
Theorem C103_occurrences F evs a m b c l l1 l2 : evs_ok evs -> a <= m <= b ->
  get_occurrences F evs (Some a, Some b) c = Ok l ->
  get_occurrences F evs (Some a, Some m) c = Ok l1 -> get_occurrences F evs (Some m, Some b) c = Ok l2 ->
  forall o d, o_duration o = Some d ->
    ((In o l1 \/ In o l2) <-> In o l /\ ~ (o_dtstart o = m /\ d = 0))
    /\ ((In o l1 /\ In o l2) <-> In o l /\ o_dtstart o < m < o_dtstart o + d).
Proof.
  intros H M E E1 E2 o d D.
  pose proof (C21_occurrences_exact F evs a b c l H E o) as X. pose proof (C21_occurrences_exact F evs a m c l1 H E1 o) as X1.
  pose proof (C21_occurrences_exact F evs m b c l2 H E2 o) as X2. rewrite X, X1, X2. clear X X1 X2 E E1 E2.
  assert (DU : forall e t d', In e evs -> e_duration e = Some d' -> o = mkOcc t (Some d') e -> t = o_dtstart o /\ d' = d /\ 0 <= d).
  { intros e t d' He De ->. cbn in D |- *. split; [reflexivity|]. destruct (H e He) as [(_ & d2 & D2 & P & _) _]. split; [congruence|]. assert (d2 = d) by congruence. lia. }
  split; split.
  - intros [(e & t & d' & A1 & A2 & A3 & A4 & A5 & A6 & A7)|(e & t & d' & A1 & A2 & A3 & A4 & A5 & A6 & A7)];
      destruct (DU e t d' A1 A3 A4) as (-> & -> & P); (split; [exists e, (o_dtstart o), d; repeat (split; [assumption|]); lia|lia]).
  - intros [(e & t & d' & A1 & A2 & A3 & A4 & A5 & A6 & A7) N]. destruct (DU e t d' A1 A3 A4) as (-> & -> & P).
    destruct (Z_lt_dec (o_dtstart o) m); [left|right]; exists e, (o_dtstart o), d; repeat (split; [assumption|]); lia.
  - intros [(e & t & d' & A1 & A2 & A3 & A4 & A5 & A6 & A7) (e' & t' & d2 & B1 & B2 & B3 & B4 & B5 & B6 & B7)].
    destruct (DU e t d' A1 A3 A4) as (-> & -> & P). destruct (DU e' t' d2 B1 B3 B4) as (-> & -> & _).
    split; [|lia]. exists e, (o_dtstart o), d; repeat (split; [assumption|]); lia.
  - intros [(e & t & d' & A1 & A2 & A3 & A4 & A5 & A6 & A7) N]. destruct (DU e t d' A1 A3 A4) as (-> & -> & P).
    split; exists e, (o_dtstart o), d; repeat (split; [assumption|]); lia.
Qed.
Print Assumptions C103_occurrences.

(** the same for events (the first occurrence counts) *)
Theorem C103_events evs a m b c l l1 l2 : a <= m <= b ->
  get_events evs (Some a, Some b) c = Ok l ->
  get_events evs (Some a, Some m) c = Ok l1 -> get_events evs (Some m, Some b) c = Ok l2 ->
  forall e d, e_duration e = Some d -> 0 <= d ->
    ((In e l1 \/ In e l2) <-> In e l /\ ~ (e_dtstart e = m /\ d = 0))
    /\ ((In e l1 /\ In e l2) <-> In e l /\ e_dtstart e < m < e_dtstart e + d).
Proof.
  intros M E E1 E2 e d D P.
  rewrite (C20_events_exact evs _ c l E e d D), (C20_events_exact evs _ c l1 E1 e d D), (C20_events_exact evs _ c l2 E2 e d D).
  cbn [fst snd]. assert (S : forall x y : Z, (forall b0, Some x = Some b0 -> b0 < y) <-> x < y).
  { intros x y. split; [intros Q; now apply Q|intros Q z Z; injection Z as <-; exact Q]. }
  assert (S' : forall x y : Z, (forall b0, Some x = Some b0 -> y < b0) <-> y < x).
  { intros x y. split; [intros Q; now apply Q|intros Q z Z; injection Z as <-; exact Q]. }
  rewrite !S, !S'. set (Q := satisfies _ e). clearbody Q.
  destruct (Z_lt_dec (e_dtstart e) m); intuition lia.
Qed.
Print Assumptions C103_events.

(** What is blocked in the whole period is what is blocked in its parts. *)
Theorem C103_blocked F evs atts a m b tb te l l1 l2 : evs_ok evs ->
  dt_ok a = true -> dt_ok m = true -> dt_ok b = true -> 0 <= tb < DAY /\ 0 <= te < DAY -> a <= m <= b ->
  get_blocked F evs atts a b tb te = Ok l ->
  get_blocked F evs atts a m tb te = Ok l1 -> get_blocked F evs atts m b tb te = Ok l2 ->
  forall t, a <= t < b ->
  ((exists s e, In (s, e) l /\ s <= t < e) <-> 
   (t < m /\ exists s e, In (s, e) l1 /\ s <= t < e) \/ (m <= t /\ exists s e, In (s, e) l2 /\ s <= t < e)).
Proof.
  intros H A M B T MM E E1 E2 t Ht. rewrite (C26_blocked_exact F evs atts a b tb te l H A B T E t Ht).
  destruct (Z_lt_dec t m) as [L|L].
  - rewrite (C26_blocked_exact F evs atts a m tb te l1 H A M T E1 t) by lia. intuition lia.
  - rewrite (C26_blocked_exact F evs atts m b tb te l2 H M B T E2 t) by lia. intuition lia.
Qed.
Print Assumptions C103_blocked.

(** * C104: criteria restrict *)
Theorem C104_events evs p c l l0 : get_events evs p (Some c) = Ok l -> get_events evs p None = Ok l0 ->
  forall e d, e_duration e = Some d -> (In e l <-> In e l0 /\ satisfies c e).
Proof.
  intros E E0 e d D. rewrite (C20_events_exact evs p _ l E e d D), (C20_events_exact evs p _ l0 E0 e d D).
  assert (N : satisfies no_criteria e) by (split; [|split]; intros x X; discriminate X).
  cbv beta iota. tauto.
Qed.
Print Assumptions C104_events.

Theorem C104_occurrences F evs a b c l l0 : evs_ok evs ->
  get_occurrences F evs (Some a, Some b) (Some c) = Ok l -> get_occurrences F evs (Some a, Some b) None = Ok l0 ->
  forall o, In o l <-> In o l0 /\ satisfies c (o_original o).
Proof.
  intros H E E0 o. rewrite (C21_occurrences_exact F evs a b _ l H E o), (C21_occurrences_exact F evs a b _ l0 H E0 o).
  split.
  - intros (e & t & d & A1 & A2 & A3 & A4 & A5). split; [|rewrite A4; exact A2].
    exists e, t, d. split; [exact A1|]. split; [split; [|split]; intros x X; discriminate X|]. auto.
  - intros [(e & t & d & A1 & A2 & A3 & A4 & A5) S]. exists e, t, d. rewrite A4 in S. cbn in S. auto.
Qed.
Print Assumptions C104_occurrences.

(** * C107 *)
(** getRecentYears: the year before, the year itself and the one after, in order *)
Theorem C107_recent_years y : Sorting.Sorted.StronglySorted Z.lt (recent_years y)
  /\ forall x, In x (recent_years y) <-> Z.abs (x - y) <= 1.
Proof.
  split; [repeat constructor; lia|]. intros x. cbn. lia.
Qed.
Print Assumptions C107_recent_years.

(** * C105: the order of the components *)
(** the storage has event [e] under [u] *)
Definition holds (s : system) (u : string) (e : event) : Prop := exists r, get_event s u = Ok r /\ obj s r = e.

Lemma component_det cf s c p cr s1 s2 v n1 n2 : component cf s c p cr s1 v n1 -> component cf s c p cr s2 v n2 ->
  n1 = n2 /\ exists u e, v_uid v = Some u /\ holds s1 u e /\ holds s2 u e.
Proof.
  intros (u & r & V & G & O) (u2 & r2 & V2 & G2 & O2). assert (u2 = u) by congruence. subst u2. clear V2.
  enough (n1 = n2 /\ obj s1 r = obj s2 r2) as [-> E].
  { split; [reflexivity|]. exists u, (obj s1 r). split; [exact V|]. split; [exists r; auto|exists r2; auto]. }
  assert (HE : forall x, get_event s u = Ok x -> has_event s u = false -> False) by (intros x X; unfold has_event; rewrite X; discriminate).
  destruct O as [(W & G0 & sp & IS & O)|[(NEW & sp & IS & NE & NV)|(NW & G0 & OB & NV)]],
    O2 as [(W' & G0' & sp' & IS' & O')|[(NEW' & sp' & IS' & NE' & NV')|(NW' & G0' & OB' & NV')]];
    try contradiction; try (exfalso; eapply HE; eassumption).
  - assert (r2 = r) by congruence. assert (sp' = sp) by congruence. subst r2 sp'.
    destruct O as [(W1 & OB & NV)|(W1 & (m & SO) & NV)], O' as [(W2 & OB' & NV')|(W2 & (m' & SO') & NV')];
      rewrite W1 in W2; try discriminate W2; [split; [congruence|now rewrite OB]|].
    split; [congruence|]. rewrite SO in SO'. now injection SO'.
  - assert (sp' = sp) by congruence. subst sp'. split; [congruence|]. rewrite NE in NE'. now injection NE'.
  - assert (r2 = r) by congruence. subst r2. split; [congruence|]. now rewrite OB.
Qed.

Lemma import_uids_perm vs ws : Permutation vs ws -> Permutation (import_uids vs) (import_uids ws).
Proof. intros P. unfold import_uids. now apply Permutation_flat_map. Qed.

Lemma visible_dec s c p cr evs u : cal_events s c p cr = Ok evs -> {visible s c p cr u} + {~ visible s c p cr u}.
Proof.
  intros E. destruct (in_dec string_dec u (map e_uid evs)) as [Y|N].
  - left. apply in_map_iff in Y as (e & U & He). exists evs, e. auto.
  - right. intros (evs' & e & E' & He & U). apply N, in_map_iff. exists e. assert (evs' = evs) by congruence. subst. auto.
Qed.

Lemma order_holds cf s c vs ws p cr sync s1 n1 s2 n2 u e : reachable cf s -> NoDup (import_uids vs) -> Permutation vs ws ->
  step cf s (OImport c (Ok (Some vs)) p cr sync) = (s1, n1, Ok tt) ->
  step cf s (OImport c (Ok (Some ws)) p cr sync) = (s2, n2, Ok tt) -> holds s1 u e -> holds s2 u e.
Proof.
  intros H ND P E1 E2 (r & G & O).
  assert (ND2 : NoDup (import_uids ws)) by (eapply Permutation_NoDup; [apply import_uids_perm; exact P|exact ND]).
  assert (TI : forall u, In u (import_uids vs) <-> In u (import_uids ws)).
  { intros w. split; apply Permutation_in; [|apply Permutation_sym]; now apply import_uids_perm. }
  destruct (in_dec string_dec u (import_uids vs)) as [Y|N].
  - destruct (C85_import_exact cf s c vs p cr sync s1 n1 H ND E1) as (ns & del & _ & FA & _).
    destruct (C85_import_exact cf s c ws p cr sync s2 n2 H ND2 E2) as (ns2 & del2 & _ & FA2 & _).
    unfold import_uids in Y. apply in_flat_map in Y as (v & Hv & Y). destruct (v_uid v) as [u'|] eqn:V; [|destruct Y]. destruct Y as [<-|[]].
    destruct (forall2_in _ _ _ FA) as [FA' _]. destruct (FA' v Hv) as (nv & _ & C1).
    destruct (forall2_in _ _ _ FA2) as [FA2' _]. destruct (FA2' v (Permutation_in _ P Hv)) as (nv2 & _ & C2).
    destruct (component_det _ _ _ _ _ _ _ _ _ _ C1 C2) as (_ & u2 & e2 & V2 & (r1 & G1 & O1) & H2).
    assert (u2 = u') by congruence. subst u2. assert (r1 = r) by congruence. subst r1. now rewrite O1 in O; subst e2.
  - assert (EV : exists evs, cal_events s c p cr = Ok evs).
    { cbn [step] in E1. destruct (import_cases cf s c (Ok (Some vs)) p cr sync) as [(evs & _ & X & _)|(_ & _ & X)]; [eauto|].
      exfalso. apply (X vs eq_refl). now rewrite E1. }
    destruct EV as (evs & EV).
    pose proof (C45_import_frame cf s c (Ok (Some vs)) p cr sync H) as FR. cbv zeta in FR. rewrite E1 in FR. unfold sst in FR. cbn [fst] in FR.
    destruct FR as (_ & _ & FR3 & FR4 & _).
    destruct (get_event s u) as [k|x|] eqn:G0.
    2,3: exfalso; apply N; destruct (FR4 u r G) as [X _]; [unfold has_event; now rewrite G0|exact X].
    assert (r = k) by (eapply FR3; eauto). subst k.
    pose proof (C85_unnamed cf s c (Ok (Some vs)) p cr sync u r H G0 N) as X. cbv zeta in X. rewrite E1 in X. unfold sst in X. cbn [fst] in X. destruct X as [OB1 _].
    assert (N2 : ~ In u (import_uids ws)) by (rewrite <- TI; exact N).
    pose proof (C85_unnamed cf s c (Ok (Some ws)) p cr sync u r H G0 N2) as X. cbv zeta in X. rewrite E2 in X. unfold sst in X. cbn [fst] in X.
    destruct X as [OB2 [G2|(-> & D2)]]; [exists r; split; [exact G2|congruence]|]. exfalso.
    destruct (visible_dec s c p cr evs u EV) as [VI|NV].
    + pose proof (C46_sync_exact cf s c vs p cr H) as Q. rewrite E1 in Q. cbv zeta in Q. destruct (Q eq_refl) as [Q1 _].
      apply N. apply (Q1 u VI). unfold sst, has_event. cbn [fst]. now rewrite G.
    + pose proof (C45_import_frame cf s c (Ok (Some ws)) p cr true H) as FR. cbv zeta in FR. rewrite E2 in FR. unfold sst in FR. cbn [fst] in FR.
      destruct FR as (FR1 & _). destruct (FR1 u r G0 NV) as [X _]. unfold has_event in D2. rewrite X in D2. discriminate.
Qed.

Lemma forall2_det {A B} (R1 R2 : A -> B -> Prop) l : (forall a x y, In a l -> R1 a x -> R2 a y -> x = y) ->
  forall xs ys, Forall2 R1 l xs -> Forall2 R2 l ys -> xs = ys.
Proof.
  induction l as [|a l IH]; intros D xs ys F1 F2; inversion F1; inversion F2; subst; [reflexivity|].
  f_equal; [eapply D; eauto; now left|]. apply IH; auto. intros; eapply D; eauto; now right.
Qed.

(** A text whose ids are distinct and its components in another order: both
    imports succeed or none does, and then the storages have the same events and
    the same notifications were sent, in some order. *)
Theorem C105_order cf s c vs ws p cr sync : reachable cf s -> NoDup (import_uids vs) -> Permutation vs ws ->
  let '(s1, n1, x1) := step cf s (OImport c (Ok (Some vs)) p cr sync) in
  let '(s2, n2, x2) := step cf s (OImport c (Ok (Some ws)) p cr sync) in
  (x1 = Ok tt <-> x2 = Ok tt)
  /\ (x1 = Ok tt -> (forall u e, holds s1 u e <-> holds s2 u e) /\ Permutation n1 n2).
Proof.
  intros H ND P.
  assert (ND2 : NoDup (import_uids ws)) by (eapply Permutation_NoDup; [apply import_uids_perm; exact P|exact ND]).
  pose proof (C65_imports_iff cf s c vs p cr sync H ND) as I1. pose proof (C65_imports_iff cf s c ws p cr sync H ND2) as I2.
  destruct (step cf s (OImport c (Ok (Some vs)) p cr sync)) as [[s1 n1] x1] eqn:E1.
  destruct (step cf s (OImport c (Ok (Some ws)) p cr sync)) as [[s2 n2] x2] eqn:E2.
  unfold srs in I1, I2. cbn [snd] in I1, I2.
  assert (IFF : x1 = Ok tt <-> x2 = Ok tt).
  { rewrite I1, I2. split; (intros [X Y]; split; [exact X|intros v Hv; apply Y; eapply Permutation_in; [|exact Hv]]); [now apply Permutation_sym|exact P]. }
  split; [exact IFF|]. intros X1. assert (X2 : x2 = Ok tt) by now apply IFF. subst x1 x2. split.
  - intros u e. split; [now apply (order_holds cf s c vs ws p cr sync s1 n1 s2 n2)|].
    apply (order_holds cf s c ws vs p cr sync s2 n2 s1 n1); auto. now apply Permutation_sym.
  - destruct (C85_import_exact cf s c vs p cr sync s1 n1 H ND E1) as (ns & del & EN & FA & DN & D).
    destruct (C85_import_exact cf s c ws p cr sync s2 n2 H ND2 E2) as (ns2 & del2 & EN2 & FA2 & DN2 & D2).
    rewrite EN, EN2. apply Permutation_app.
    + destruct (Permutation_Forall2 P FA) as (ns' & PN & FA').
      assert (ns' = ns2).
      { eapply forall2_det; [|exact FA'|exact FA2]. intros v a b _ A B. now apply (component_det cf s c p cr s1 s2 v). }
      subst ns'. rewrite <- (map_id ns), <- (map_id ns2), <- !flat_map_concat_map. now apply Permutation_flat_map.
    + apply Permutation_map, NoDup_Permutation; [exact DN|exact DN2|]. intros u. rewrite D, D2.
      assert (TI : In u (import_uids vs) <-> In u (import_uids ws)).
      { split; apply Permutation_in; [|apply Permutation_sym]; now apply import_uids_perm. }
      tauto.
Qed.
Print Assumptions C105_order.

(** * C106: importing in portions *)
Lemma import_loop_ext cf c k1 k2 l : (forall u, In u (import_uids l) -> (In u k1 <-> In u k2)) ->
  forall s, import_loop cf s c k1 l = import_loop cf s c k2 l.
Proof.
  induction l as [|v l IH]; intros K s; [reflexivity|]. cbn [import_loop].
  assert (E : import_one cf s c k1 v = import_one cf s c k2 v).
  { unfold import_one. destruct (v_uid v) as [u|] eqn:V; [|reflexivity].
    assert (KU : In u k1 <-> In u k2) by (apply K; unfold import_uids; cbn [flat_map]; rewrite V; now left).
    assert (B : str_in u k1 = str_in u k2).
    { apply Bool.eq_true_iff_eq. rewrite !str_in_iff. exact KU. }
    now rewrite B. }
  rewrite E. destruct (import_one cf s c k2 v) as [[s1 n1] [u|x|]]; [|reflexivity..]. cbn [sbind].
  rewrite IH; [reflexivity|]. intros w Hw. apply K. unfold import_uids in *. cbn [flat_map]. apply in_or_app. now right.
Qed.

Lemma import_loop_both cf c known l1 l2 : forall s, import_loop cf s c known (l1 ++ l2) =
  sbind (import_loop cf s c known l1) (fun s us => sbind (import_loop cf s c known l2) (fun s us2 => sret s (us ++ us2))).
Proof.
  induction l1 as [|v l1 IH]; intros s.
  - cbn [app import_loop sbind sret]. destruct (import_loop cf s c known l2) as [[s2 n2] [us|x|]]; cbn; now rewrite ?app_nil_r.
  - cbn [app import_loop]. destruct (import_one cf s c known v) as [[s1 n1] [u|x|]]; [|reflexivity..]. cbn [sbind].
    rewrite IH. destruct (import_loop cf s1 c known l1) as [[s2 n2] [us|x|]]; [|reflexivity..]. cbn [sbind sret].
    destruct (import_loop cf s2 c known l2) as [[s3 n3] [us2|x|]]; cbn; now rewrite ?app_nil_r, ?app_assoc.
Qed.

(** A text in two portions that have no id in common, without synchronizing:
    importing one after the other is importing all of it at once, as long as the
    calendar can be read in between. *)
Theorem C106_portions cf s c vs ws p cr s1 n1 s2 n2 x2 evs1 : reachable cf s ->
  (forall u, In u (import_uids vs) -> ~ In u (import_uids ws)) ->
  step cf s (OImport c (Ok (Some vs)) p cr false) = (s1, n1, Ok tt) -> cal_events s1 c p cr = Ok evs1 ->
  step cf s1 (OImport c (Ok (Some ws)) p cr false) = (s2, n2, x2) ->
  step cf s (OImport c (Ok (Some (vs ++ ws))) p cr false) = (s2, n1 ++ n2, x2).
Proof.
  intros H DJ E1 V1 E2. pose proof (reachable_store cf s H) as I. cbn [step] in *.
  unfold import_cal in *. rewrite sbind_slift in E1, E2. rewrite sbind_slift. rewrite V1 in E2.
  destruct (cal_events s c p cr) as [evs|x|] eqn:V; [|discriminate E1..].
  rewrite sbind_slift in E1, E2. rewrite sbind_slift. set (k := nodup string_dec (map e_uid evs)) in *. set (k1 := nodup string_dec (map e_uid evs1)) in *.
  pose proof (import_loop_frame1 cf c k vs s) as F. pose proof (import_loop_tracks cf c k vs s I) as (I1 & _).
  rewrite import_loop_both. destruct (import_loop cf s c k vs) as [[s1' n1'] [us|x|]]; [|discriminate E1..].
  cbn [sbind sret] in E1. unfold sst in F, I1. cbn [fst] in F, I1. rewrite app_nil_r in E1. injection E1 as -> ->.
  assert (X : import_loop cf s1 c k ws = import_loop cf s1 c k1 ws).
  { apply import_loop_ext. intros u Hu. assert (N : ~ In u (import_uids vs)) by (intros Q; now apply (DJ u Q)).
    destruct (frame_other _ _ s s1 u I F N N) as [G1 G2]. destruct F as (_ & _ & _ & _ & FS & FC).
    assert (VK : forall s0 evs0, cal_events s0 c p cr = Ok evs0 -> (visible s0 c p cr u <-> In u (nodup string_dec (map e_uid evs0)))).
    { intros s0 evs0 E0. rewrite known_in. split; [intros (evs' & e & A & B & C0); exists e; assert (evs' = evs0) by congruence; now subst|intros (e & B & C0); exists evs0, e; auto]. }
    unfold k, k1. rewrite <- (VK s evs V), <- (VK s1 evs1 V1).
    split; intros VI.
    - assert (D : exists r, dget (sys_store s) u = Some r).
      { destruct VI as (evs' & e & A & B & <-). destruct (cal_events_known s c p cr evs' e I A B) as (r & D & _). eauto. }
      destruct D as (r & D). eapply (visible_same s1 s c p cr evs1 u r); eauto; [now rewrite G1|symmetry; now apply G2].
    - assert (D : exists r, dget (sys_store s1) u = Some r).
      { destruct VI as (evs' & e & A & B & <-). destruct (cal_events_known s1 c p cr evs' e I1 A B) as (r & D & _). eauto. }
      destruct D as (r & D). rewrite G1 in D. eapply (visible_same s s1 c p cr evs u r); eauto; now rewrite G1. }
  cbn [sbind]. rewrite X. destruct (import_loop cf s1 c k1 ws) as [[s3 n3] [us2|x|]]; cbn [sbind sret] in *; rewrite ?app_nil_r in *; injection E2 as <- <- <-; reflexivity.
Qed.
Print Assumptions C106_portions.

(** * C108: occurrences are asked for in bounded periods only *)
(** Events can be asked for in any period (C20); occurrences cannot. *)
Theorem C108_bounded F evs p c : fst p = None \/ snd p = None ->
  get_occurrences F evs p c = Raise AssertionError
  /\ get_occurrences_segmented F evs p c = Raise AssertionError
  /\ (forall atts, calendar_occurrences F evs atts p c = Raise AssertionError /\ calendar_segmented F evs atts p c = Raise AssertionError)
  /\ forall a, attendee_occurrences F evs a p c = Raise AssertionError.
Proof.
  intros H. assert (X : forall c, get_occurrences F evs p c = Raise AssertionError).
  { intros c'. unfold get_occurrences. destruct p as [[b|] [e|]], H as [H|H]; try discriminate H; reflexivity. }
  assert (Y : forall c, get_occurrences_segmented F evs p c = Raise AssertionError).
  { intros c'. unfold get_occurrences_segmented. now rewrite X. }
  split; [apply X|]. split; [apply Y|]. split; [split; [apply X|apply Y]|intros; apply X].
Qed.
Print Assumptions C108_bounded.
Example C108_case : get_occurrences 20 store (Some (at_ 0 0), None) None = Raise AssertionError
  /\ get_events store (Some (at_ 0 20), None) None = Ok [ev3]
  /\ exists l, get_occurrences 20 store (Some (at_ 0 0), Some (at_ 2 0)) None = Ok l.
Proof. split; [reflexivity|]. split; [vm_compute; reflexivity|]. eexists. vm_compute. reflexivity. Qed.

(** ** cases *)
(** [ev1] (10 to 12) is under way at 11 and shows in both parts; an event without
    length at 11 shows in the whole period only. *)
Example C103_case :
  let z := q_event "z" (at_ 0 11) 0 None "CONFIRMED" false [("alice", "ACCEPTED")]%string in
  let q a b := get_occurrences 20 [ev1; z] (Some (at_ 0 a), Some (at_ 0 b)) None in
  let o e d := mkOcc (e_dtstart e) (Some d) e in
  evs_ok [ev1; z] /\ q 9 14 = Ok [o ev1 (2 * HOUR); o z 0] /\ q 9 11 = Ok [o ev1 (2 * HOUR)] /\ q 11 14 = Ok [o ev1 (2 * HOUR)]
  /\ get_events [ev1; z] (Some (at_ 0 9), Some (at_ 0 14)) None = Ok [ev1; z]
  /\ get_events [ev1; z] (Some (at_ 0 9), Some (at_ 0 11)) None = Ok [ev1]
  /\ get_events [ev1; z] (Some (at_ 0 11), Some (at_ 0 14)) None = Ok [ev1].
Proof.
  cbv zeta. split; [|vm_compute; repeat split].
  intros e [<-|[<-|[]]]; (split; [split; [vm_compute; reflexivity|];
    eexists; split; [reflexivity|]; vm_compute; intuition congruence|]); vm_compute; intuition congruence.
Qed.
Example C103_blocked_case :
  let q a b := get_blocked 20 store [alice] (at_ 0 a) (at_ 0 b) (8 * HOUR) (18 * HOUR) in
  let night := (at_ 0 0, at_ 0 8) in let evening := (at_ 0 18, at_ 0 24) in
  q 7 14 = Ok [night; (at_ 0 10, at_ 0 12); evening]
  /\ q 7 11 = Ok [night; (at_ 0 10, at_ 0 11); evening] /\ q 11 14 = Ok [night; (at_ 0 11, at_ 0 12); evening].
Proof. vm_compute. repeat split. Qed.

Example C104_case :
  let c := {| c_attendees := Some [bob]; c_status := Some "ACCEPTED"%string; c_role := None; c_organizer := None; c_categories := None |} in
  let p := (Some (at_ 0 0), Some (at_ 1 0)) in
  get_events store p None = Ok [ev1; ev2] /\ get_events store p (Some c) = Ok [ev2]
  /\ satisfies c ev2 /\ ~ satisfies c ev1
  /\ exists o1 o2, get_occurrences 20 store p None = Ok [o1; o2] /\ get_occurrences 20 store p (Some c) = Ok [o2] /\ o_original o2 = ev2.
Proof.
  cbv zeta. split; [vm_compute; reflexivity|]. split; [vm_compute; reflexivity|]. split; [|split].
  - split; [discriminate|]. split; [discriminate|]. cbn. intros l E. injection E as <-. exists "bob"%string, "ACCEPTED"%string.
    split; [now left|]. split; [reflexivity|]. split; [intros s E; now injection E as <-|discriminate].
  - intros (_ & _ & X). destruct (X _ eq_refl) as (i & st & [E|[]] & A & S & _). injection E as <-. specialize (S _ eq_refl). subst st. vm_compute in A. discriminate.
  - do 2 eexists. split; [vm_compute; reflexivity|]. split; vm_compute; reflexivity.
Qed.

Definition meta_v (u title : string) : vevent :=
  mkV (Some u) (Some (IFloat (p_at 732500 9))) None (Some HOUR) (Some title) None None None None [] [] None None None None.

(** a text with a shown event, a hidden one and a new one, both ways round, and
    synchronizing: [a2] goes.  When an id is repeated, the order matters. *)
Example C105_case :
  let vs := [meta_v "a1" "A"; meta_v "b1" "B"; meta_v "n1" "N"]%string in
  let imp l := step cf0 (run cf0 office) (OImport 0 (Ok (Some l)) (None, None) None true) in
  NoDup (import_uids vs) /\ srs (imp vs) = Ok tt
  /\ snt (imp vs) = [NModified "a1"; NCreated "n1"; NDeleted "a2"]%string
  /\ snt (imp (rev vs)) = [NCreated "n1"; NModified "a1"; NDeleted "a2"]%string
  /\ (exists r, get_event (sst (imp [meta_v "a1" "A"; meta_v "a1" "B"]%string)) "a1" = Ok r
       /\ e_title (obj (sst (imp [meta_v "a1" "A"; meta_v "a1" "B"]%string)) r) = "B"%string
       /\ e_title (obj (sst (imp [meta_v "a1" "B"; meta_v "a1" "A"]%string)) r) = "A"%string).
Proof.
  cbv zeta. split; [repeat constructor; cbn; intuition discriminate|]. split; [vm_compute; reflexivity|]. split; [vm_compute; reflexivity|].
  split; [vm_compute; reflexivity|]. exists 0%nat. vm_compute. repeat split.
Qed.

(** in portions; synchronizing with each of them would remove the first again *)
Example C106_case :
  let vs := [meta_v "a1" "A"; meta_v "n1" "N"]%string in let ws := [meta_v "b1" "B"; meta_v "n2" "M"; meta_v "a2" "C"]%string in
  let imp s l sync := step cf0 s (OImport 0 (Ok (Some l)) (None, None) None sync) in
  let s1 := sst (imp (run cf0 office) vs false) in
  srs (imp (run cf0 office) vs false) = Ok tt /\ (exists evs, cal_events s1 0 (None, None) None = Ok evs)
  /\ snt (imp (run cf0 office) vs false) = [NModified "a1"; NCreated "n1"]%string
  /\ snt (imp s1 ws false) = [NCreated "n2"; NModified "a2"]%string
  /\ snt (imp (run cf0 office) (vs ++ ws) false) = [NModified "a1"; NCreated "n1"; NCreated "n2"; NModified "a2"]%string
  /\ has_event (sst (imp (sst (imp (run cf0 office) vs true)) ws true)) "n1" = false
  /\ has_event (sst (imp (run cf0 office) (vs ++ ws) true)) "n1" = true.
Proof. cbv zeta. split; [vm_compute; reflexivity|]. split; [eexists; vm_compute; reflexivity|]. vm_compute. repeat split. Qed.

Example C107_case : recent_years 2003 = [2002; 2003; 2004].
Proof. reflexivity. Qed.
