(** Period membership and day segmentation. *)
From Verif Require Import Base PyDate SpecRecur RecurProofs CalTime.
From Coq Require Import ZifyBool.
Ltac Zify.zify_post_hook ::= Z.div_mod_to_equations.

(** ** lifting lemmas *)
Lemma rconcat_in {A B} (f : A -> res (list B)) l : forall out, rconcat_map f l = Ok out ->
  forall y, In y out <-> exists x ys, In x l /\ f x = Ok ys /\ In y ys.
Proof.
  induction l as [|a l IH]; intros out E y; cbn [rconcat_map] in E.
  - injection E as <-. split; [intros []|intros (x & ys & [] & _)].
  - destruct (f a) as [ya| |] eqn:Fa; try discriminate. cbn [rbind] in E.
    destruct (rconcat_map f l) as [r| |]; try discriminate. injection E as <-.
    rewrite in_app_iff, (IH r eq_refl). split.
    + intros [H|(x & ys & H1 & H2 & H3)]; [exists a, ya|exists x, ys]; cbn; auto.
    + intros (x & ys & [<-|H1] & H2 & H3); [left; congruence|right; exists x, ys; auto].
Qed.

Lemma rconcat_ok {A B} (f : A -> res (list B)) l :
  (forall x, In x l -> exists ys, f x = Ok ys) -> exists out, rconcat_map f l = Ok out.
Proof.
  induction l as [|a l IH]; intros H; [now exists []|]. cbn [rconcat_map].
  destruct (H a (or_introl eq_refl)) as [ya ->]. cbn [rbind].
  destruct IH as [r ->]; [intros x Hx; apply H; now right|]. cbn [rbind]. now eexists.
Qed.

Lemma rconcat_all {A B} (f : A -> res (list B)) l : forall out, rconcat_map f l = Ok out ->
  forall x, In x l -> exists ys, f x = Ok ys.
Proof.
  induction l as [|a l IH]; intros out E x Hx; [destruct Hx|]. cbn [rconcat_map] in E.
  destruct (f a) as [ya| |] eqn:Fa; try discriminate. cbn [rbind] in E.
  destruct (rconcat_map f l) as [r| |] eqn:R; try discriminate.
  destruct Hx as [<-|Hx]; [now exists ya|]. eapply IH; eauto.
Qed.

Lemma rfilter_in {A} (f : A -> res bool) l : forall out, rfilter f l = Ok out ->
  forall x, In x out <-> In x l /\ f x = Ok true.
Proof.
  induction l as [|a l IH]; intros out E x; cbn [rfilter] in E.
  - injection E as <-. cbn. tauto.
  - destruct (f a) as [b| |] eqn:Fa; try discriminate. cbn [rbind] in E.
    destruct (rfilter f l) as [r| |]; try discriminate. injection E as <-.
    specialize (IH r eq_refl x). destruct b; cbn [In].
    + rewrite IH. split; [intros [<-|[H1 H2]]; auto|intros [[<-|H1] H2]; auto].
    + rewrite IH. split; [tauto|intros [[<-|H1] H2]; [congruence|auto]].
Qed.

Lemma rfilter_ok {A} (f : A -> res bool) l : (forall x, In x l -> exists b, f x = Ok b) ->
  exists out, rfilter f l = Ok out.
Proof.
  induction l as [|a l IH]; intros H; [now exists []|]. cbn [rfilter].
  destruct (H a (or_introl eq_refl)) as [b ->]. cbn [rbind].
  destruct IH as [r ->]; [intros x Hx; apply H; now right|]. cbn [rbind]. now eexists.
Qed.

(** the result keeps order and multiplicity of the input *)
Lemma rfilter_is_filter {A} (f : A -> res bool) l out : rfilter f l = Ok out ->
  out = filter (fun x => match f x with Ok b => b | _ => false end) l.
Proof.
  revert out. induction l as [|a l IH]; intros out E; cbn [rfilter] in E; [now injection E as <-|].
  destruct (f a) as [b| |] eqn:Fa; try discriminate. cbn [rbind] in E.
  destruct (rfilter f l) as [r| |]; try discriminate. injection E as <-.
  cbn [filter]. rewrite Fa. rewrite (IH r eq_refl). reflexivity.
Qed.

(** ** in_period *)
Definition after_begin (p : period) (t : Z) : Prop := match fst p with Some b => b <= t | None => True end.
Definition before_end (p : period) (t : Z) : Prop := match snd p with Some e => t < e | None => True end.
Definition period_nonempty (p : period) : Prop :=
  match p with (Some b, Some e) => b < e | _ => True end.

Lemma in_period_total s d p : dt_ok (s + d) = true -> exists b, in_period s (Some d) p = Ok b.
Proof.
  intros H. destruct p as [[b|] [e|]]; unfold in_period, end_of, dt_add; rewrite ?H; cbn [rbind];
    try destruct (s + d <=? b); eauto.
Qed.

Lemma in_period_dec s d p : dt_ok (s + d) = true ->
  in_period s (Some d) p = Ok (match fst p with Some b => b <? s + d | None => true end
                               && match snd p with Some e => s <? e | None => true end).
Proof.
  intros H. destruct p as [[b|] [e|]]; unfold in_period, end_of, dt_add; rewrite ?H; cbn [rbind fst snd andb];
    repeat match goal with |- context [if ?x then _ else _] => destruct x eqn:? end; f_equal; lia.
Qed.

Lemma in_period_overlap s d p : 0 < d -> dt_ok (s + d) = true -> period_nonempty p ->
  (in_period s (Some d) p = Ok true <->
   exists t, s <= t < s + d /\ after_begin p t /\ before_end p t).
Proof.
  intros Hd H N. rewrite in_period_dec by assumption. unfold after_begin, before_end.
  destruct p as [[b|] [e|]]; cbn [fst snd] in *; cbn in N; split; intros X.
  - assert (b < s + d /\ s < e) by (injection X; lia). exists (Z.max s b). lia.
  - destruct X as (t & T). f_equal. lia.
  - assert (b < s + d) by (injection X; lia). exists (Z.max s b). lia.
  - destruct X as (t & T). f_equal. lia.
  - assert (s < e) by (injection X; lia). exists s. lia.
  - destruct X as (t & T). f_equal. lia.
  - exists s. lia.
  - reflexivity.
Qed.

Lemma in_period_instant s p : dt_ok s = true ->
  in_period s (Some 0) p = Ok (match fst p with Some b => b <? s | None => true end
                               && match snd p with Some e => s <? e | None => true end).
Proof. intros H. rewrite in_period_dec, Z.add_0_r by (now rewrite Z.add_0_r). reflexivity. Qed.

Lemma in_period_ok_true s d b e : in_period s d (Some b, Some e) = Ok true ->
  exists d', d = Some d' /\ dt_ok (s + d') = true /\ b < s + d' /\ s < e.
Proof.
  destruct d as [d'|]; [|discriminate]. unfold in_period, end_of, dt_add.
  destruct (dt_ok (s + d')) eqn:E; [|discriminate]. cbn [rbind].
  destruct (s + d' <=? b) eqn:L; [discriminate|]. intros X. injection X as X.
  exists d'. repeat split; auto; lia.
Qed.

(** ** day borders *)
Definition midnights (a b : Z) : list Z := map (fun k => k * DAY) (days a b).

Lemma next_midnight_eq x : next_midnight x =
  if dt_ok ((dt_date x + 1) * DAY) then Ok ((dt_date x + 1) * DAY) else Raise OverflowError.
Proof.
  unfold next_midnight, dt_add, combine, dt_date.
  replace (x / DAY * DAY + 0 + DAY) with ((x / DAY + 1) * DAY) by lia. reflexivity.
Qed.

Lemma div_day k : k * DAY / DAY = k.
Proof. unfold DAY. lia. Qed.

Lemma day_borders_eq F : forall x y e l, day_borders F x y e = Ok l ->
  l = midnights (dt_date x + 1) (dt_date (Z.min y e)) /\ Forall (fun m => dt_ok m = true) l.
Proof.
  induction F as [|F IH]; intros x y e l E; [discriminate|]. cbn [day_borders] in E.
  rewrite next_midnight_eq in E. set (k := dt_date x + 1) in *.
  destruct (dt_ok (k * DAY)) eqn:O; [|discriminate]. cbn [rbind] in E.
  destruct ((e <? k * DAY) || (y <? k * DAY)) eqn:B.
  - injection E as <-. split; [|constructor]. unfold midnights. rewrite days_nil; [reflexivity|].
    unfold dt_date, DAY in *. lia.
  - destruct (day_borders F (k * DAY) y e) as [r| |] eqn:R; try discriminate. injection E as <-.
    apply IH in R as [-> R2]. split; [|now constructor].
    unfold midnights. rewrite (days_cons k); [cbn [map]; unfold dt_date at 1; now rewrite div_day|].
    unfold dt_date, DAY in *. lia.
Qed.

Lemma day_borders_total F : forall x y e, dt_date e - dt_date x + 1 <= Z.of_nat F -> (1 <= F)%nat ->
  DAY <= x -> (Z.max (dt_date x) (dt_date (Z.min y e)) + 1 <= MAXORD) ->
  exists l, day_borders F x y e = Ok l.
Proof.
  induction F as [|F IH]; intros x y e HF H1 Hx Hm; [lia|]. cbn [day_borders].
  rewrite next_midnight_eq. set (k := dt_date x + 1) in *.
  assert (O : dt_ok (k * DAY) = true) by (unfold dt_ok, k, dt_date, DAY, MAXORD in *; lia).
  rewrite O. cbn [rbind].
  destruct ((e <? k * DAY) || (y <? k * DAY)) eqn:B; [now exists []|].
  destruct (IH (k * DAY) y e) as [l ->].
  - unfold k, dt_date, DAY in *. lia.
  - unfold k, dt_date, DAY in *. lia.
  - unfold k, dt_date, DAY in *. lia.
  - unfold k, dt_date, DAY, MAXORD in *. lia.
  - cbn [rbind]. now eexists.
Qed.

Lemma day_borders_fuel F : forall x y e, dt_date e - dt_date x + 1 <= Z.of_nat F -> (1 <= F)%nat ->
  day_borders F x y e <> OutOfFuel.
Proof.
  induction F as [|F IH]; intros x y e HF H1; [lia|]. cbn [day_borders].
  rewrite next_midnight_eq. set (k := dt_date x + 1) in *.
  destruct (dt_ok (k * DAY)); cbn [rbind]; [|discriminate].
  destruct ((e <? k * DAY) || (y <? k * DAY)) eqn:B; [discriminate|].
  specialize (IH (k * DAY) y e ltac:(unfold k, dt_date, DAY in *; lia) ltac:(unfold k, dt_date, DAY in *; lia)).
  destruct (day_borders F (k * DAY) y e); cbn [rbind]; congruence.
Qed.

Lemma border_fuel_ok x e : dt_date e - dt_date x + 1 <= Z.of_nat (border_fuel x e) /\ (1 <= border_fuel x e)%nat.
Proof. unfold border_fuel, dt_date, DAY. lia. Qed.

(** ** pieces *)
Fixpoint pieces (b : Z) (l : list Z) (last : Z) : list (Z * Z) :=
  match l with
  | [] => [(b, last)]
  | m :: r => (b, m) :: pieces m r last
  end.

Lemma pieces_snoc l : forall b m last, pieces b (l ++ [m]) last = pieces b l m ++ [(m, last)].
Proof. induction l as [|a l IH]; intros b m last; cbn [app pieces]; [reflexivity|]. now rewrite IH. Qed.

Definition piece_in (start end_ : Z) (x : Z * Z) : bool := (start <? snd x) && (fst x <? end_).
Definition piece_occ {A} (orig : A) (x : Z * Z) : occurrence A :=
  mkOcc (fst x) (Some (snd x - fst x)) orig.

Lemma emit_eq {A} (orig : A) start end_ l : forall b last,
  dt_ok last = true -> Forall (fun m => dt_ok m = true) l ->
  emit_segments orig (Some start, Some end_) last (rev (b :: l))
  = Ok (map (piece_occ orig) (filter (piece_in start end_) (rev (pieces b l last)))).
Proof.
  induction l as [|m l IH] using rev_ind; intros b last O F.
  - cbn [rev app pieces emit_segments]. 
    rewrite in_period_dec; [|now replace (b + (last - b)) with last by lia].
    cbn [rbind fst snd]. replace (b + (last - b)) with last by lia.
    cbn [filter]. unfold piece_in at 1. cbn [fst snd].
    destruct ((start <? last) && (b <? end_)); reflexivity.
  - apply Forall_app in F as [F1 F2]. inversion F2 as [|? ? Om _]; subst.
    rewrite app_comm_cons, rev_app_distr. cbn [rev app]. cbn [emit_segments].
    change (rev l ++ [b]) with (rev (b :: l)).
    rewrite in_period_dec; [|now replace (m + (last - m)) with last by lia].
    cbn [rbind fst snd]. replace (m + (last - m)) with last by lia.
    rewrite IH by assumption. cbn [rbind].
    rewrite pieces_snoc, rev_app_distr. cbn [rev app filter]. change (piece_in start end_ (m, last)) with ((start <? last) && (m <? end_)).
    destruct ((start <? last) && (m <? end_)); reflexivity.
Qed.

Definition occ_end {A} (o : occurrence A) : option Z :=
  match o_duration o with Some d => Some (o_dtstart o + d) | None => None end.

(** the instant [t] belongs to the occurrence *)
Definition occ_covers {A} (o : occurrence A) (t : Z) : Prop :=
  exists d, o_duration o = Some d /\ o_dtstart o <= t < o_dtstart o + d.

Definition seg_pieces (start end_ s y : Z) : list (Z * Z) :=
  let x := Z.max s start in
  let last := Z.min y end_ in
  pieces x (midnights (dt_date x + 1) (dt_date last)) last.

Lemma midnights_head a b m r : midnights a b = m :: r -> m = a * DAY.
Proof.
  unfold midnights. destruct (Z_le_gt_dec a b) as [L|L].
  - rewrite days_cons by lia. cbn [map]. congruence.
  - rewrite days_nil by lia. discriminate.
Qed.

Lemma segment_one_eq {A} start end_ (occ : occurrence A) out :
  dt_ok end_ = true -> segment_one start end_ occ = Ok out ->
  exists d, o_duration occ = Some d /\ dt_ok (o_dtstart occ + d) = true /\
    out = map (piece_occ (o_original occ))
            (filter (piece_in start end_)
               (rev (seg_pieces start end_ (o_dtstart occ) (o_dtstart occ + d)))).
Proof.
  intros OE E. unfold segment_one in E. set (s := o_dtstart occ) in *.
  destruct (o_duration occ) as [d|]; [|discriminate]. exists d.
  unfold end_of, dt_add in E. destruct (dt_ok (s + d)) eqn:OY; [|discriminate]. cbn [rbind] in E.
  set (y := s + d) in *.
  set (x := if s <? start then start else s) in *.
  assert (X : x = Z.max s start) by (subst x; destruct (s <? start) eqn:?; lia).
  destruct (day_borders (border_fuel x end_) x y end_) as [l| |] eqn:B; try discriminate. cbn [rbind] in E.
  apply day_borders_eq in B as [-> FB].
  set (l := midnights (dt_date x + 1) (dt_date (Z.min y end_))) in *.
  assert (BO : (if s <? start then start :: l
                else match l with [] => s :: l | b0 :: _ => if s =? b0 then l else s :: l end) = x :: l).
  { subst x. destruct (s <? start) eqn:L; [reflexivity|].
    destruct l as [|b0 r] eqn:EL; [reflexivity|]. apply midnights_head in EL.
    replace (s =? b0) with false; [reflexivity|]. symmetry. apply Z.eqb_neq. unfold dt_date, DAY in *. lia. }
  rewrite BO in E.
  assert (LA : (if end_ <? y then end_ else y) = Z.min y end_) by (destruct (end_ <? y) eqn:?; lia).
  rewrite LA in E.
  assert (OL : dt_ok (Z.min y end_) = true) by (destruct (Z.min_spec y end_) as [[_ ->]|[_ ->]]; assumption).
  rewrite emit_eq in E by assumption. injection E as <-.
  split; [reflexivity|]. split; [reflexivity|]. unfold seg_pieces. rewrite <- X. reflexivity.
Qed.

Lemma segment_one_total {A} start end_ (occ : occurrence A) d :
  dt_ok start = true -> dt_ok end_ = true -> dt_ok (o_dtstart occ) = true ->
  o_duration occ = Some d -> dt_ok (o_dtstart occ + d) = true ->
  Z.max (o_dtstart occ) start < MAXORD * DAY -> Z.min (o_dtstart occ + d) end_ < MAXORD * DAY ->
  exists out, segment_one start end_ occ = Ok out.
Proof.
  intros OS OE O1 D OY L1 L2. unfold segment_one. set (s := o_dtstart occ) in *. rewrite D.
  unfold end_of, dt_add. rewrite OY. cbn [rbind]. set (y := s + d) in *.
  set (x := if s <? start then start else s) in *.
  assert (X : x = Z.max s start) by (subst x; destruct (s <? start) eqn:?; lia).
  destruct (day_borders_total (border_fuel x end_) x y end_) as [l B].
  - apply border_fuel_ok.
  - apply border_fuel_ok.
  - unfold dt_ok in *. lia.
  - unfold dt_date, DAY, MAXORD in *. lia.
  - rewrite B. cbn [rbind]. apply day_borders_eq in B as [-> FB].
    set (l := midnights (dt_date x + 1) (dt_date (Z.min y end_))) in *.
    assert (BO : (if s <? start then start :: l
                  else match l with [] => s :: l | b0 :: _ => if s =? b0 then l else s :: l end) = x :: l).
    { subst x. destruct (s <? start) eqn:L; [reflexivity|].
      destruct l as [|b0 r] eqn:EL; [reflexivity|]. apply midnights_head in EL.
      replace (s =? b0) with false; [reflexivity|]. symmetry. apply Z.eqb_neq. unfold dt_date, DAY in *. lia. }
    rewrite BO.
    assert (OL : dt_ok (if end_ <? y then end_ else y) = true) by (destruct (end_ <? y); assumption).
    rewrite emit_eq by assumption. now eexists.
Qed.

(** ** properties of the pieces *)
(** consecutive pieces, each within one day, from [b] to [last] *)
Lemma pieces_props n : forall b last, b <= last -> n = Z.to_nat (dt_date last - dt_date b) ->
  let l := midnights (dt_date b + 1) (dt_date last) in
  (forall t, (exists p, In p (pieces b l last) /\ fst p <= t < snd p) <-> b <= t < last)
  /\ (forall p, In p (pieces b l last) -> b <= fst p /\ fst p <= snd p <= last
        /\ dt_date (fst p) * DAY <= fst p /\ snd p <= (dt_date (fst p) + 1) * DAY
        /\ (fst p = snd p -> p = (last, last) /\ (b = last \/ last = dt_date last * DAY)))
  /\ ForallOrdPairs (fun p q => snd p <= fst q) (pieces b l last).
Proof.
  induction n as [|n IH]; intros b last L N l.
  - assert (dt_date last = dt_date b) by (unfold dt_date, DAY in *; lia).
    assert (EL : l = []) by (subst l; unfold midnights; rewrite days_nil by lia; reflexivity).
    rewrite EL. cbn [pieces]. split; [|split].
    + intros t. split; [intros (p & [<-|[]] & T); exact T|]. intros T. exists (b, last). cbn; auto.
    + intros p [<-|[]]. cbn [fst snd]. unfold dt_date, DAY in *.
      split; [lia|]. split; [lia|]. split; [lia|]. split; [lia|]. intros ->. split; [reflexivity|auto].
    + repeat constructor.
  - assert (Hlt : dt_date b < dt_date last) by lia.
    set (m := (dt_date b + 1) * DAY).
    assert (Em : dt_date m = dt_date b + 1) by (subst m; unfold dt_date; apply div_day).
    assert (EL : l = m :: midnights (dt_date m + 1) (dt_date last)).
    { subst l. unfold midnights. rewrite (days_cons (dt_date b + 1)) by lia. cbn [map]. now rewrite Em. }
    assert (Lm : m <= last) by (subst m; unfold dt_date, DAY in *; lia).
    assert (Bm : b < m) by (subst m; unfold dt_date, DAY in *; lia).
    destruct (IH m last Lm ltac:(lia)) as (I1 & I2 & I3).
    rewrite EL. cbn [pieces]. split; [|split].
    + intros t. split.
      * intros (p & [<-|H] & T); cbn [fst snd] in T; [lia|].
        assert (m <= t < last) by (apply I1; exists p; auto). lia.
      * intros T. destruct (Z_lt_le_dec t m) as [X|X].
        -- exists (b, m). cbn; split; [auto|lia].
        -- destruct (proj2 (I1 t)) as (p & P1 & P2); [lia|]. exists p. split; [now right|exact P2].
    + intros p [<-|H]; cbn [fst snd].
      * split; [lia|]. split; [lia|]. split; [unfold dt_date, DAY; lia|].
        split; [subst m; lia|]. lia.
      * destruct (I2 p H) as (J1 & J2 & J3 & J4 & J5). split; [lia|]. split; [lia|].
        split; [exact J3|]. split; [exact J4|]. intros E. destruct (J5 E) as [K1 K2].
        split; [exact K1|]. right. destruct K2 as [K2|K2]; [|exact K2]. subst m. rewrite <- K2.
        unfold dt_date. now rewrite div_day.
    + constructor; [|exact I3]. apply Forall_forall. intros p H. destruct (I2 p H) as (J1 & _). cbn. lia.
Qed.

Lemma seg_pieces_none start end_ s y : Z.min y end_ < Z.max s start ->
  seg_pieces start end_ s y = [(Z.max s start, Z.min y end_)].
Proof.
  intros H. unfold seg_pieces, midnights. rewrite days_nil; [reflexivity|]. unfold dt_date, DAY in *. lia.
Qed.

Lemma FOP_rev {A} (R : A -> A -> Prop) l : ForallOrdPairs R l -> ForallOrdPairs (fun a b => R b a) (rev l).
Proof.
  assert (SNOC : forall l x, ForallOrdPairs (fun a b => R b a) l -> Forall (fun y => R x y) l ->
    ForallOrdPairs (fun a b => R b a) (l ++ [x])).
  { intros l' x H. induction H as [|a l' F H IH]; intros G; cbn; [repeat constructor|].
    inversion G; subst. constructor; [|now apply IH]. apply Forall_app. split; [exact F|]. now repeat constructor. }
  induction 1 as [|a l F H IH]; cbn [rev]; [constructor|]. apply SNOC; [exact IH|].
  apply Forall_rev. exact F.
Qed.

Lemma FOP_filter {A} (R : A -> A -> Prop) (p : A -> bool) l : ForallOrdPairs R l -> ForallOrdPairs R (filter p l).
Proof.
  induction 1 as [|a l F H IH]; cbn [filter]; [constructor|]. destruct (p a); [|exact IH].
  constructor; [|exact IH]. rewrite Forall_forall in *. intros x Hx. apply filter_In in Hx. apply F; tauto.
Qed.

Lemma FOP_map {A B} (R : B -> B -> Prop) (f : A -> B) l :
  ForallOrdPairs (fun a b => R (f a) (f b)) l -> ForallOrdPairs R (map f l).
Proof.
  induction 1 as [|a l F H IH]; cbn [map]; [constructor|]. constructor; [|exact IH].
  apply Forall_map. exact F.
Qed.

(** all the facts about the segments of one occurrence *)
Lemma segment_one_props {A} start end_ (occ : occurrence A) out d :
  dt_ok end_ = true -> o_duration occ = Some d -> 0 <= d ->
  segment_one start end_ occ = Ok out ->
  let s := o_dtstart occ in
  (forall t, (exists o, In o out /\ occ_covers o t) <-> occ_covers occ t /\ start <= t < end_)
  /\ (forall o, In o out -> o_original o = o_original occ /\
        exists d', o_duration o = Some d' /\ 0 <= d'
          /\ start <= o_dtstart o /\ o_dtstart o + d' <= end_
          /\ s <= o_dtstart o /\ o_dtstart o + d' <= s + d
          /\ (exists D, D * DAY <= o_dtstart o /\ o_dtstart o + d' <= (D + 1) * DAY)
          /\ (d' = 0 -> o_dtstart o = s + d /\ start < s + d < end_ /\ (d = 0 \/ dt_time (s + d) = 0)))
  /\ ForallOrdPairs (fun o2 o1 => exists d1, o_duration o1 = Some d1 /\ o_dtstart o1 + d1 <= o_dtstart o2) out.
Proof.
  intros OE D Hd E s. apply segment_one_eq in E; [|assumption].
  destruct E as (d0 & D0 & OY & ->). rewrite D in D0. injection D0 as <-. fold s.
  set (x := Z.max s start). set (last := Z.min (s + d) end_).
  assert (INO : forall o, In o (map (piece_occ (o_original occ))
       (filter (piece_in start end_) (rev (seg_pieces start end_ s (s + d))))) <->
     exists p, In p (seg_pieces start end_ s (s + d)) /\ piece_in start end_ p = true /\ o = piece_occ (o_original occ) p).
  { intros o. rewrite in_map_iff. split.
    - intros (p & <- & H). apply filter_In in H as [H1 H2]. apply in_rev in H1. exists p. auto.
    - intros (p & H1 & H2 & ->). exists p. split; [reflexivity|]. apply filter_In. split; [|exact H2].
      now apply in_rev in H1. }
  assert (COV : forall t, (exists o, In o (map (piece_occ (o_original occ))
       (filter (piece_in start end_) (rev (seg_pieces start end_ s (s + d))))) /\ occ_covers o t) <->
     exists p, In p (seg_pieces start end_ s (s + d)) /\ piece_in start end_ p = true /\ fst p <= t < snd p).
  { intros t. split.
    - intros (o & H & (d' & Hd' & T)). apply INO in H as (p & H1 & H2 & ->).
      exists p. split; [exact H1|]. split; [exact H2|]. cbn in Hd', T. injection Hd' as <-. lia.
    - intros (p & H1 & H2 & T). exists (piece_occ (o_original occ) p). split; [apply INO; eauto|].
      exists (snd p - fst p). cbn. split; [reflexivity|lia]. }
  assert (OC : forall t, occ_covers occ t /\ start <= t < end_ <-> x <= t < last).
  { intros t. unfold occ_covers. rewrite D. subst x last. fold s. split.
    - intros [(d' & X & T) U]. injection X as <-. lia.
    - intros T. split; [exists d; split; [reflexivity|lia]|lia]. }
  destruct (Z_lt_le_dec last x) as [L|L].
  { assert (NONE : forall p, In p (seg_pieces start end_ s (s + d)) -> piece_in start end_ p = false).
    { intros p H. rewrite seg_pieces_none in H by exact L. destruct H as [<-|[]].
      unfold piece_in. cbn [fst snd]. fold x last. subst x last. lia. }
    split; [|split].
    - intros t. rewrite COV, OC. split; [|lia]. intros (p & H1 & H2 & _). rewrite NONE in H2 by assumption. discriminate.
    - intros o H. apply INO in H as (p & H1 & H2 & _). rewrite NONE in H2 by assumption. discriminate.
    - rewrite filter_none; [constructor|]. intros p H. apply in_rev in H. now apply NONE. }
  destruct (pieces_props _ x last L eq_refl) as (I1 & I2 & I3).
  change (pieces x (midnights (dt_date x + 1) (dt_date last)) last) with (seg_pieces start end_ s (s + d)) in *.
  split; [|split].
  - intros t. rewrite COV, OC, <- I1. split; intros (p & H); exists p; [tauto|].
    destruct H as [H1 H2]. split; [exact H1|]. split; [|exact H2].
    destruct (I2 p H1) as (J1 & J2 & _). unfold piece_in. subst x last. lia.
  - intros o H. apply INO in H as (p & H1 & H2 & ->). split; [reflexivity|].
    destruct (I2 p H1) as (J1 & J2 & J3 & J4 & J5). exists (snd p - fst p). cbn [piece_occ o_duration o_dtstart].
    split; [reflexivity|]. split; [lia|]. subst x last. split; [lia|]. split; [lia|]. split; [lia|].
    split; [lia|]. split.
    + exists (dt_date (fst p)). lia.
    + intros Z0. destruct J5 as [K1 K2]; [lia|]. unfold piece_in in H2. rewrite K1 in *. cbn [fst snd] in *.
      assert (B : start < s + d < end_ /\ Z.min (s + d) end_ = s + d) by lia.
      destruct B as [B1 B2]. rewrite B2 in *. split; [reflexivity|]. split; [exact B1|].
      destruct K2 as [K2|K2]; [left; lia|]. right. unfold dt_time, dt_date, DAY in *. lia.
  - apply FOP_map. apply FOP_filter.
    assert (R : ForallOrdPairs (fun q p : Z * Z => snd p <= fst q) (rev (seg_pieces start end_ s (s + d)))).
    { apply (FOP_rev (fun p q => snd p <= fst q)). exact I3. }
    clear -R. induction R as [|a l F R IH]; constructor; [|exact IH].
    eapply Forall_impl; [|exact F]. intros q Hq. exists (snd q - fst q). cbn in *. split; [reflexivity|lia].
Qed.

(** ** rounding *)
Lemma round_ceil td : exists k, roundtimedelta td = k * DAY /\ td <= k * DAY /\ forall j, td <= j * DAY -> k <= j.
Proof.
  unfold roundtimedelta, td_rest, td_days. destruct (0 <? td mod DAY) eqn:E.
  - exists (td / DAY + 1). unfold DAY in *. split; [lia|]. split; [lia|]. intros; lia.
  - exists (td / DAY). unfold DAY in *. split; [lia|]. split; [lia|]. intros; lia.
Qed.

(** ** whole lists of occurrences *)
Lemma segments_in {A} b e (occs : list (occurrence A)) out : segment_occurrences (b, e) occs = Ok out ->
  forall o, In o out <-> exists occ segs, In occ occs /\ segment_one b e occ = Ok segs /\ In o segs.
Proof. intros E. exact (rconcat_in _ _ _ E). Qed.

Lemma segments_total {A} b e (occs : list (occurrence A)) :
  dt_ok b = true -> dt_ok e = true -> b < MAXORD * DAY -> e < MAXORD * DAY ->
  (forall o, In o occs -> dt_ok (o_dtstart o) = true /\ o_dtstart o < MAXORD * DAY /\
     exists d, o_duration o = Some d /\ dt_ok (o_dtstart o + d) = true) ->
  exists out, segment_occurrences (b, e) occs = Ok out.
Proof.
  intros B E LB LE H. apply rconcat_ok. intros o Ho. destruct (H o Ho) as (H1 & H2 & d & D & H3).
  eapply segment_one_total; eauto; cbn [fst snd]; lia.
Qed.

(** the segments of a list: the concatenation of the segments of its members *)
Lemma segments_cons {A} b e (o : occurrence A) occs out : segment_occurrences (b, e) (o :: occs) = Ok out ->
  exists s1 s2, segment_one b e o = Ok s1 /\ segment_occurrences (b, e) occs = Ok s2 /\ out = s1 ++ s2.
Proof.
  unfold segment_occurrences. cbn [rconcat_map fst snd].
  destruct (segment_one b e o) as [s1| |]; cbn [rbind]; try discriminate.
  destruct (rconcat_map _ occs) as [s2| |]; cbn [rbind]; try discriminate.
  intros X. injection X as <-. eauto.
Qed.

Definition durations_ok {A} (occs : list (occurrence A)) : Prop :=
  forall o, In o occs -> exists d, o_duration o = Some d /\ 0 <= d.

Lemma segments_coverage {A} b e (occs : list (occurrence A)) out :
  dt_ok e = true -> durations_ok occs -> segment_occurrences (b, e) occs = Ok out ->
  forall (x : A) t,
    (exists o, In o out /\ o_original o = x /\ occ_covers o t) <->
    (b <= t < e /\ exists o, In o occs /\ o_original o = x /\ occ_covers o t).
Proof.
  intros OE D E x t. split.
  - intros (o & Ho & Hx & T). apply (segments_in _ _ _ _ E) in Ho as (occ & segs & H1 & H2 & H3).
    destruct (D occ H1) as (d & D1 & D2).
    destruct (segment_one_props b e occ segs d OE D1 D2 H2) as (P1 & P2 & _).
    destruct (proj1 (P1 t)) as [Q1 Q2]; [exists o; auto|]. split; [exact Q2|].
    exists occ. destruct (P2 o H3) as [Q3 _]. split; [exact H1|]. split; [congruence|exact Q1].
  - intros (B & occ & H1 & Hx & T). destruct (D occ H1) as (d & D1 & D2).
    destruct (rconcat_all _ _ _ E occ H1) as [segs H2]. cbn [fst snd] in H2.
    destruct (segment_one_props b e occ segs d OE D1 D2 H2) as (P1 & P2 & _).
    destruct (proj2 (P1 t)) as (o & O1 & O2); [auto|]. exists o. split; [|].
    + apply (segments_in _ _ _ _ E). exists occ, segs. auto.
    + destruct (P2 o O1) as [Q3 _]. split; [congruence|exact O2].
Qed.

Lemma segments_within {A} b e (occs : list (occurrence A)) out :
  dt_ok e = true -> durations_ok occs -> segment_occurrences (b, e) occs = Ok out ->
  forall o, In o out -> exists occ d d', In occ occs /\ o_original o = o_original occ
    /\ o_duration occ = Some d /\ o_duration o = Some d' /\ 0 <= d'
    /\ b <= o_dtstart o /\ o_dtstart o + d' <= e
    /\ o_dtstart occ <= o_dtstart o /\ o_dtstart o + d' <= o_dtstart occ + d
    /\ exists D, D * DAY <= o_dtstart o /\ o_dtstart o + d' <= (D + 1) * DAY.
Proof.
  intros OE D E o Ho. apply (segments_in _ _ _ _ E) in Ho as (occ & segs & H1 & H2 & H3).
  destruct (D occ H1) as (d & D1 & D2).
  destruct (segment_one_props b e occ segs d OE D1 D2 H2) as (_ & P2 & _).
  destruct (P2 o H3) as (Q & d' & Q1 & Q2 & Q3 & Q4 & Q5 & Q6 & Q7 & _).
  exists occ, d, d'. auto 12.
Qed.

Lemma segments_once {A} b e (occ : occurrence A) out d : dt_ok e = true -> o_duration occ = Some d -> 0 <= d ->
  segment_occurrences (b, e) [occ] = Ok out ->
  ForallOrdPairs (fun o1 o2 => forall t, ~ (occ_covers o1 t /\ occ_covers o2 t)) out.
Proof.
  intros OE D1 D2 E. apply segments_cons in E as (s1 & s2 & E1 & E2 & ->).
  injection E2 as <-. rewrite app_nil_r.
  destruct (segment_one_props b e occ s1 d OE D1 D2 E1) as (_ & _ & P).
  clear -P. induction P as [|o l F P IH]; constructor; [|exact IH].
  eapply Forall_impl; [|exact F]. intros o1 (d1 & X & Y) t [(da & Z1 & Z2) (db & Z3 & Z4)].
  rewrite X in Z3. injection Z3 as <-. lia.
Qed.

Lemma segments_nonempty {A} b e (occs : list (occurrence A)) out :
  dt_ok e = true -> (forall o, In o occs -> exists d, o_duration o = Some d /\ 0 < d
     /\ (dt_time (o_dtstart o + d) = 0 -> ~ (b < o_dtstart o + d < e))) ->
  segment_occurrences (b, e) occs = Ok out ->
  forall o, In o out -> exists d, o_duration o = Some d /\ 0 < d.
Proof.
  intros OE D E o Ho. apply (segments_in _ _ _ _ E) in Ho as (occ & segs & H1 & H2 & H3).
  destruct (D occ H1) as (d & D1 & D2 & D3).
  destruct (segment_one_props b e occ segs d OE D1 ltac:(lia) H2) as (_ & P2 & _).
  destruct (P2 o H3) as (Q & d' & Q1 & Q2 & _ & _ & _ & _ & _ & Q8).
  exists d'. split; [exact Q1|]. destruct (Z.eq_dec d' 0) as [Z0|Z0]; [exfalso|lia].
  destruct (Q8 Z0) as (R1 & R2 & [R3|R3]); [lia|]. exact (D3 R3 R2).
Qed.

Lemma segments_one {A} b e (o : occurrence A) s : segment_one b e o = Ok s -> segment_occurrences (b, e) [o] = Ok s.
Proof. unfold segment_occurrences. cbn [rconcat_map fst snd]. intros ->. cbn [rbind]. now rewrite app_nil_r. Qed.
