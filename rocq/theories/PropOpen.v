(** Property theorems C152: expanding one event over any period, open or not
    (cal.py 498-515, 1075-1088), and C82's vocabularies in general (cal.py 1164-1183). *)
From Verif Require Import Base PyDate DateFacts Recurrent CalTime TimeProofs Event Storage ICal System Repr
  QueryProofs BlockProofs EventProofs SpecProofs SystemProofs PropEvent PropSystem PropCause.
From Coq Require Import ZifyBool.
Ltac Zify.zify_post_hook ::= Z.div_mod_to_equations.
Local Opaque ord2ymd year_of month_of day_of ymd2ord days_in_month is_leap.

(** * C152 *)
(** ** specification *)
(** the dates an event takes place on up to the end of the period, and how the
    search for them ended *)
Definition dates_of (F : nat) (e : event) (b : option Z) : list Z * fin :=
  match e_recurrence e, b with
  | None, _ => ([dt_date (e_dtstart e)], GStop)
  | Some r, Some t => apply F r (e_dtstart e) (Some (VDate (dt_date t)))
  | Some r, None => ([], GRaise AttributeError)
  end.

(** the moment it starts on that date *)
Definition starts (e : event) (d : Z) : Z := d * DAY + dt_time (e_dtstart e).

(** an open start asks nothing about the end of the event *)
Definition over_by (e : event) (t : Z) (a : option Z) : Prop :=
  match a with Some m => exists n, e_duration e = Some n /\ t + n <= m | None => False end.
Definition before_end (t : Z) (b : option Z) : Prop := match b with Some m => t < m | None => True end.

(** ** proofs *)
(** both branches are the same loop over [dates_of] *)
Lemma expand_loop F e a b : expand F e (a, b) =
  (let* out := expand_dates e (a, b) (fst (dates_of F e b)) in
   match snd (dates_of F e b) with GStop => Ok out | GRaise x => Raise x | GMore => OutOfFuel end).
Proof.
  unfold expand, dates_of. cbn [snd]. destruct (e_recurrence e) as [r|].
  - destruct b as [t|]; [|reflexivity]. destruct (apply F r (e_dtstart e) (Some (VDate (dt_date t)))) as [l f]. reflexivity.
  - cbn [fst snd]. unfold expand_dates. cbn [rconcat_map]. rewrite combine_split. destruct (in_period (e_dtstart e) (e_duration e) (a, b)) as [[]|x|]; reflexivity.
Qed.

Lemma period_open t d b : in_period t d (None, b) = Ok (match b with Some m => t <? m | None => true end).
Proof. unfold in_period. destruct b as [m|]; [|reflexivity]. f_equal. lia. Qed.

Lemma period_from t d m b : in_period t (Some d) (Some m, b) =
  if dt_ok (t + d) then Ok ((m <? t + d) && match b with Some n => t <? n | None => true end) else Raise OverflowError.
Proof.
  unfold in_period, end_of, dt_add. destruct (dt_ok (t + d)); cbn [rbind]; [|reflexivity].
  destruct (t + d <=? m) eqn:L; destruct b as [n|]; f_equal; lia.
Qed.

(** the test for one date *)
Definition kept (e : event) (a b : option Z) (d : Z) : bool :=
  match a, e_duration e with Some m, Some n => m <? starts e d + n | _, _ => true end
  && match b with Some m => starts e d <? m | None => true end.

Lemma kept_iff e a b d : a = None \/ e_duration e <> None -> (kept e a b d = true <-> before_end (starts e d) b /\ ~ over_by e (starts e d) a).
Proof.
  intros H. unfold kept, before_end, over_by. rewrite andb_true_iff. rewrite and_comm.
  destruct a as [m|]; [destruct H as [H|H]; [discriminate|]; destruct (e_duration e) as [n|]; [|congruence]|];
    destruct b as [t|]; (split; [intros [A B]; split; [try lia; exact I|try (intros (k & K & L); injection K as <-; lia); try tauto]|intros [A B]; split; try lia; try reflexivity;
      try (apply Z.ltb_lt, Z.nle_gt; intros L; apply B; exists n; auto)]).
Qed.

Definition fine_all (e : event) (a : option Z) (l : list Z) : Prop :=
  a = None \/ forall d, In d l -> ~ exists y, no_end (starts e d) (e_duration e) y.

Lemma loop_one e a b d : 
  (a = None \/ ~ exists y, no_end (starts e d) (e_duration e) y) /\ in_period (combine d (dt_time (e_dtstart e))) (e_duration e) (a, b) = Ok (kept e a b d)
  \/ a <> None /\ exists x, no_end (starts e d) (e_duration e) x /\ in_period (combine d (dt_time (e_dtstart e))) (e_duration e) (a, b) = Raise x.
Proof.
  change (combine d (dt_time (e_dtstart e))) with (starts e d). unfold kept. destruct a as [m|].
  - destruct (in_period (starts e d) (e_duration e) (Some m, b)) as [k|x|] eqn:P.
    + left. split; [right; apply (in_period_fine _ _ m b); eauto|]. rewrite <- P. destruct (e_duration e) as [n|]; [|discriminate P].
      rewrite period_from in *. destruct (dt_ok _); [reflexivity|discriminate].
    + right. split; [discriminate|]. exists x. split; [now apply (in_period_raise _ _ m b)|reflexivity].
    + destruct (in_period_fuel _ _ _ P).
  - left. split; [auto|]. rewrite period_open. reflexivity.
Qed.

Lemma loop_ok e a b : forall l, fine_all e a l ->
  expand_dates e (a, b) l = Ok (map (fun d => mkOcc (starts e d) (e_duration e) e) (filter (kept e a b) l)).
Proof.
  unfold expand_dates. induction l as [|d l IH]; intros H; [reflexivity|]. cbn [rconcat_map filter].
  assert (H' : fine_all e a l) by (destruct H as [H|H]; [now left|right; intros k K; apply H; now right]).
  destruct (loop_one e a b d) as [[_ ->]|(N & x & X & _)].
  - cbn [rbind]. rewrite (IH H'). cbn [rbind]. destruct (kept e a b d); reflexivity.
  - destruct H as [H|H]; [contradiction|]. destruct (H d (or_introl eq_refl)). eauto.
Qed.

Lemma loop_raise e a b x : forall l, expand_dates e (a, b) l = Raise x <->
  a <> None /\ exists before d after, l = before ++ d :: after /\ no_end (starts e d) (e_duration e) x
    /\ forall d', In d' before -> ~ exists y, no_end (starts e d') (e_duration e) y.
Proof.
  unfold expand_dates. induction l as [|d l IH]; cbn [rconcat_map].
  - split; [discriminate|]. intros (_ & [|? ?] & ? & ? & E & _); discriminate.
  - destruct (loop_one e a b d) as [[FN ->]|(N & y & Y & ->)]; cbn [rbind].
    + transitivity (rconcat_map (fun d => let* b0 := in_period (combine d (dt_time (e_dtstart e))) (e_duration e) (a, b) in
          Ok (if b0 then [mkOcc (combine d (dt_time (e_dtstart e))) (e_duration e) e] else [])) l = Raise x).
      { destruct (rconcat_map _ l); cbn [rbind]; split; congruence. }
      rewrite IH. split; intros (NA & pre & k & post & E & P & Q); (split; [exact NA|]).
      * exists (d :: pre), k, post. rewrite E. split; [reflexivity|]. split; [exact P|]. intros d' [<-|I]; [destruct FN; [contradiction|assumption]|now apply Q].
      * destruct pre as [|z pre]; injection E as -> ->.
        -- destruct FN as [FN|FN]; [contradiction|]. destruct FN. eauto.
        -- exists pre, k, post. split; [reflexivity|]. split; [exact P|]. intros d' I. apply Q. now right.
    + split.
      * intros E. injection E as ->. split; [exact N|]. exists [], d, l. split; [reflexivity|]. split; [exact Y|]. intros d' [].
      * intros (_ & pre & k & post & E & P & Q). destruct pre as [|z pre]; injection E as -> ->.
        -- f_equal. destruct Y as [[Y1 Y2]|(n & Y1 & Y2 & Y3)], P as [[P1 P2]|(n' & P1 & P2 & P3)]; congruence.
        -- destruct (Q z (or_introl eq_refl)). eauto.
Qed.

(** What raises: an occurrence without end, when the period has a start to compare
    it with; else the search for dates, which needs the period's end. *)
Theorem C152_raises F e a b x : expand F e (a, b) = Raise x <->
  let (dates, how) := dates_of F e b in
  (a <> None /\ exists before d after, dates = before ++ d :: after /\ no_end (starts e d) (e_duration e) x
      /\ forall d', In d' before -> ~ exists y, no_end (starts e d') (e_duration e) y)
  \/ (fine_all e a dates /\ how = GRaise x).
Proof.
  rewrite expand_loop. destruct (dates_of F e b) as [l f]. cbn [fst snd]. rewrite <- (loop_raise e a b).
  destruct (expand_dates e (a, b) l) as [out|y|] eqn:X; cbn [rbind].
  - assert (FA : fine_all e a l).
    { destruct a as [m|]; [|now left]. right. intros d I [y Y].
      assert (R : exists z, expand_dates e (Some m, b) l = Raise z); [|destruct R; congruence].
      clear X. unfold expand_dates. induction l as [|k l IH]; [destruct I|]. cbn [rconcat_map]. destruct (loop_one e (Some m) b k) as [[FN ->]|(_ & z & _ & ->)]; [|eexists; reflexivity].
      cbn [rbind]. destruct I as [->|I]; [destruct FN as [FN|FN]; [discriminate|destruct FN; eauto]|]. destruct (IH I) as [z ->]. exists z. reflexivity. }
    split; [intros E; right; split; [exact FA|destruct f; congruence]|]. intros [H|[_ ->]]; [discriminate|reflexivity].
  - split; [intros E; left; exact E|]. intros [H|[H _]]; [exact H|]. rewrite (loop_ok e a b l H) in X. discriminate.
  - destruct (expand_dates_fuel e (a, b) l X).
Qed.
Print Assumptions C152_raises.

(** What is returned: the dates in order, less those whose occurrence starts too late
    or is over too early. *)
Theorem C152_returns F e a b out : expand F e (a, b) = Ok out <->
  let (dates, how) := dates_of F e b in
  how = GStop /\ fine_all e a dates
  /\ exists p, (forall d, In d dates -> (p d = true <-> before_end (starts e d) b /\ ~ over_by e (starts e d) a))
     /\ out = map (fun d => mkOcc (starts e d) (e_duration e) e) (filter p dates).
Proof.
  rewrite expand_loop. destruct (dates_of F e b) as [l f] eqn:DF. cbn [fst snd].
  assert (K : fine_all e a l -> forall d, In d l -> (kept e a b d = true <-> before_end (starts e d) b /\ ~ over_by e (starts e d) a)).
  { intros H d I. apply kept_iff. destruct H as [H|H]; [auto|]. right. intros D. apply (H d I). exists TypeError. left. auto. }
  split.
  - intros E. assert (FA : fine_all e a l).
    { destruct a as [m|]; [|now left]. right. intros d I N.
      destruct (expand_dates e (Some m, b) l) as [o|y|] eqn:X; cbn [rbind] in E; try discriminate.
      unfold expand_dates in X. destruct (rconcat_all _ _ _ X d I) as [ys Y]. cbn beta in Y.
      destruct (loop_one e (Some m) b d) as [[[?|FN] _]|(_ & z & _ & Z)]; [discriminate|contradiction|]. rewrite Z in Y. discriminate. }
    rewrite (loop_ok e a b l FA) in E. cbn [rbind] in E. destruct f; try discriminate. injection E as <-.
    split; [reflexivity|]. split; [exact FA|]. exists (kept e a b). split; [exact (K FA)|reflexivity].
  - intros (-> & FA & p & P & ->). rewrite (loop_ok e a b l FA). cbn [rbind]. f_equal. f_equal. apply filter_ext_in. intros d I.
    specialize (K FA d I). specialize (P d I). destruct (kept e a b d), (p d); intuition congruence.
Qed.
Print Assumptions C152_returns.

(** Giving the period a start takes away exactly what is over by then, and nothing else. *)
Theorem C152_narrower F e m b out out' : expand F e (None, b) = Ok out -> expand F e (Some m, b) = Ok out' ->
  exists p, out' = filter p out /\ forall o, In o out -> (p o = true <-> ~ exists n, e_duration e = Some n /\ o_dtstart o + n <= m).
Proof.
  intros E E'. apply C152_returns in E. apply C152_returns in E'. destruct (dates_of F e b) as [l f].
  destruct E as (_ & _ & p & P & ->). destruct E' as (_ & _ & q & Q & ->).
  exists (fun o => match e_duration e with Some n => m <? o_dtstart o + n | None => true end). split.
  - clear f. induction l as [|d l IH]; [reflexivity|]. cbn [filter].
    assert (IH' := IH (fun k I => P k (or_intror I)) (fun k I => Q k (or_intror I))). clear IH.
    specialize (P d (or_introl eq_refl)). specialize (Q d (or_introl eq_refl)). unfold over_by in P, Q.
    destruct (p d) eqn:PD; cbn [map filter o_dtstart].
    + assert (B : before_end (starts e d) b) by now apply P. rewrite <- IH'.
      destruct (e_duration e) as [n|] eqn:DU.
      * destruct (m <? starts e d + n) eqn:L.
        -- replace (q d) with true; [reflexivity|]. symmetry. apply Q. split; [exact B|]. intros (k & K & X). injection K as <-. lia.
        -- replace (q d) with false; [reflexivity|]. symmetry. apply not_true_iff_false. intros X. apply Q in X as [_ X]. apply X. exists n. split; [reflexivity|lia].
      * replace (q d) with true; [reflexivity|]. symmetry. apply Q. split; [exact B|]. intros (k & K & _). discriminate.
    + rewrite <- IH'. replace (q d) with false; [reflexivity|]. symmetry. apply not_true_iff_false. intros X. apply Q in X as [X _].
      assert (false = true) by (apply P; split; [exact X|intros []]). discriminate.
  - intros o _. destruct (e_duration e) as [n|].
    + rewrite Z.ltb_lt. split; [intros L (k & K & X); injection K as <-; lia|]. intros N. apply Z.nle_gt. intros X. apply N. exists n. auto.
    + split; [intros _ (k & K & _); discriminate|reflexivity].
Qed.
Print Assumptions C152_narrower.

(** a daily event without length: its occurrences before an end can be listed as long as
    nobody asks when they are over, and never without an end *)
Example C152_case : exists e, let s := run cf0 (office ++ [OAssign 0 (mkSpec (p_at 732500 9) None "x" "" "" "" (match mk_rule KDaily 2 None None [] [] "" with Ok r => Some r | _ => None end) false [] true "PUBLIC" None None [])]) in
  e = obj s 0 /\ map o_dtstart (match expand 50 e (None, Some (p_at 732505 0)) with Ok l => l | _ => [] end) = [p_at 732500 9; p_at 732502 9; p_at 732504 9]
  /\ expand 50 e (Some (p_at 732501 0), Some (p_at 732505 0)) = Raise TypeError /\ expand 50 e (None, None) = Raise AttributeError.
Proof. eexists. cbv zeta. split; [reflexivity|]. vm_compute. auto. Qed.

(** * C82: which vocabularies can be built *)
Theorem C82_built {A} (eqb : A -> A -> bool) (l : list (term A)) : (forall x y, eqb x y = true <-> x = y) ->
  (NoDup (map fst l) /\ NoDup (map snd l) /\ simple_vocabulary eqb l = Ok l)
  \/ (~ (NoDup (map fst l) /\ NoDup (map snd l)) /\ simple_vocabulary eqb l = Raise ValueError).
Proof.
  intros EQ. induction l as [|[v t] l IH]; cbn [simple_vocabulary map fst snd].
  - left. repeat split; constructor.
  - destruct IH as [(D1 & D2 & ->)|[N ->]]; cbn [rbind].
    + destruct (existsb (fun x => eqb v (fst x) || String.eqb t (snd x)) l) eqn:X.
      * right. split; [|reflexivity]. apply existsb_exists in X as ([v' t'] & I & X). cbn [fst snd] in X. intros [N1 N2]. inversion_clear N1 as [|? ? M1 _]. inversion_clear N2 as [|? ? M2 _].
        apply orb_true_iff in X as [X|X]; [apply EQ in X; subst; apply M1; apply (in_map fst) in I; exact I|apply String.eqb_eq in X; subst; apply M2; apply (in_map snd) in I; exact I].
      * left. split; [constructor; [|exact D1]|split; [constructor; [|exact D2]|reflexivity]]; intros I; apply in_map_iff in I as ([v' t'] & E & I); cbn in E; subst;
          apply not_true_iff_false in X; apply X, existsb_exists; (eexists; split; [exact I|]); cbn [fst snd]; apply orb_true_iff; [left; now apply EQ|right; apply String.eqb_refl].
    + right. split; [|reflexivity]. intros [N1 N2]. apply N. inversion_clear N1. inversion_clear N2. auto.
Qed.
Print Assumptions C82_built.

(** for texts: exactly lists without repetition, each value its own token *)
Theorem C82_built_texts l x : (vocabulary_factory l = Raise x <-> ~ NoDup l /\ x = ValueError)
  /\ (NoDup l -> vocabulary_factory l = Ok (List.combine l l)).
Proof.
  assert (F1 : map fst (map (fun x : string => (x, x)) l) = l) by (rewrite map_map; apply map_id).
  assert (F2 : map snd (map (fun x : string => (x, x)) l) = l) by (rewrite map_map; apply map_id).
  assert (CB : map (fun x : string => (x, x)) l = List.combine l l) by (clear; induction l as [|a l IH]; cbn; [reflexivity|now rewrite IH]).
  unfold vocabulary_factory. destruct (C82_built String.eqb (map (fun x => (x, x)) l) String.eqb_eq) as [(D & _ & ->)|[N ->]]; rewrite F1, ?F2 in *.
  - split; [split; [discriminate|intros [N _]; contradiction]|]. intros _. now rewrite CB.
  - split; [split; [intros E; injection E as <-; tauto|intros [_ ->]; reflexivity]|]. intros D. tauto.
Qed.
Print Assumptions C82_built_texts.
Example C82_built_case : vocabulary_factory ["PUBLIC"; "PRIVATE"; "PUBLIC"]%string = Raise ValueError.
Proof. reflexivity. Qed.
