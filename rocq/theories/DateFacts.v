(** Facts about the calendar arithmetic of PyDate.v. *)
From Verif Require Import Base PyDate.
From Coq Require Import ZifyBool.
Ltac Zify.zify_post_hook ::= Z.div_mod_to_equations.

Lemma divq p k q : 0 < k -> k * q <= p < k * q + k -> p / k = q.
Proof. intros H K. symmetry. apply Z.div_unique with (r := p - k * q); lia. Qed.

Definition leapZ (y : Z) : Z := if is_leap y then 1 else 0.

Lemma dby_step y : days_before_year (y + 1) = days_before_year y + 365 + leapZ y.
Proof.
  unfold days_before_year, leapZ, is_leap.
  destruct (y mod 4 =? 0) eqn:A; destruct (y mod 100 =? 0) eqn:B;
  destruct (y mod 400 =? 0) eqn:C; simpl; lia.
Qed.

Lemma leapZ_range y : 0 <= leapZ y <= 1.
Proof. unfold leapZ; destruct (is_leap y); lia. Qed.

Lemma dby_mono y y' : y <= y' -> days_before_year y <= days_before_year y'.
Proof. unfold days_before_year. lia. Qed.

Lemma dby_lt y y' : y < y' -> days_before_year y + 365 + leapZ y <= days_before_year y'.
Proof.
  intros H. rewrite <- dby_step. apply dby_mono. lia.
Qed.

Lemma dby_ge y : 365 * (y - 1) <= days_before_year y \/ y < 1.
Proof. unfold days_before_year. lia. Qed.

Ltac months m H :=
  let X := fresh "X" in
  assert (X : m = 1 \/ m = 2 \/ m = 3 \/ m = 4 \/ m = 5 \/ m = 6 \/ m = 7 \/ m = 8
              \/ m = 9 \/ m = 10 \/ m = 11 \/ m = 12) by (clear -H; lia);
  repeat (destruct X as [X|X]); subst m.

Lemma dbm_step y m : 1 <= m <= 12 ->
  days_before_month y (m + 1) = days_before_month y m + days_in_month y m.
Proof.
  intros H. unfold days_before_month, days_in_month.
  months m H; destruct (is_leap y); reflexivity.
Qed.

Lemma dbm_lt y m m' : 1 <= m -> m < m' -> m' <= 13 ->
  days_before_month y m + days_in_month y m <= days_before_month y m'.
Proof.
  intros H1 H2 H3.
  assert (H : 1 <= m <= 12) by lia.
  assert (H' : 1 <= m' - 1 <= 12) by lia.
  unfold days_before_month, days_in_month.
  remember (m' - 1) as p eqn:Ep. assert (m' = p + 1) by lia. subst m'. clear Ep H3.
  destruct (is_leap y);
  months m H; months p H'; first [exfalso; clear -H2; lia | vm_compute; discriminate].
Qed.

Lemma dbm_13 y : days_before_month y 13 = 365 + leapZ y.
Proof. unfold days_before_month, leapZ. simpl. destruct (is_leap y); reflexivity. Qed.

Lemma dbm_1 y : days_before_month y 1 = 0.
Proof. unfold days_before_month. destruct (is_leap y); reflexivity. Qed.

Lemma dbm_ge0 y m : 0 <= days_before_month y m.
Proof.
  unfold days_before_month, dbm_common.
  repeat match goal with |- context [if ?b then _ else _] => destruct b end; lia.
Qed.

Lemma dim_range y m : 28 <= days_in_month y m <= 31.
Proof.
  unfold days_in_month.
  repeat match goal with |- context [if ?b then _ else _] => destruct b end; lia.
Qed.

(** valid civil dates without an upper bound on the year *)
Definition civil (y m d : Z) : Prop := 1 <= m <= 12 /\ 1 <= d <= days_in_month y m.

Lemma civil_yday y m d : civil y m d ->
  1 <= days_before_month y m + d <= 365 + leapZ y.
Proof.
  intros [Hm Hd]. pose proof (dbm_ge0 y m).
  assert (days_before_month y m + days_in_month y m <= 365 + leapZ y).
  { rewrite <- dbm_13. apply dbm_lt; lia. }
  lia.
Qed.

Lemma ymd2ord_lt y m d y' m' d' :
  civil y m d -> civil y' m' d' ->
  (y < y' \/ (y = y' /\ (m < m' \/ (m = m' /\ d < d')))) ->
  ymd2ord y m d < ymd2ord y' m' d'.
Proof.
  intros C C' H. unfold ymd2ord.
  pose proof (civil_yday _ _ _ C). pose proof (civil_yday _ _ _ C').
  destruct H as [H|[-> [H|[-> H]]]].
  - pose proof (dby_lt _ _ H). lia.
  - destruct C as [C1 C2], C' as [C3 C4].
    assert (days_before_month y' m + days_in_month y' m <= days_before_month y' m')
      by (apply dbm_lt; lia).
    lia.
  - lia.
Qed.

Lemma ymd2ord_inj y m d y' m' d' :
  civil y m d -> civil y' m' d' ->
  ymd2ord y m d = ymd2ord y' m' d' -> (y, m, d) = (y', m', d').
Proof.
  intros C C' E.
  assert (L := ymd2ord_lt y m d y' m' d' C C').
  assert (L' := ymd2ord_lt y' m' d' y m d C' C).
  assert (y = y') by lia. assert (m = m') by lia. assert (d = d') by lia.
  congruence.
Qed.

(** the month search of [_ord2ymd]: checked for each of the 731 (leap, day) pairs *)
Definition yday_ok (leap : bool) (n : Z) : bool :=

  let m := yday_month leap n in
  let b (k : Z) := dbm_common k + (if (2 <? k) && leap then 1 else 0) in
  (1 <=? m) && (m <=? 12) && (b m <=? n) && (n <? b (m + 1)).

Fixpoint sweep (p : Z -> bool) (n : nat) : bool :=
  match n with O => true | S k => p (Z.of_nat k) && sweep p k end.

Lemma sweep_spec p n : sweep p n = true -> forall z, 0 <= z < Z.of_nat n -> p z = true.
Proof.
  induction n as [|n IH]; intros H z Hz; [lia|].
  cbn [sweep] in H. apply andb_prop in H as [H1 H2].
  destruct (Z.eq_dec z (Z.of_nat n)) as [->|]; [exact H1|].
  apply IH; [exact H2|lia].
Qed.

Lemma yday_month_ok (leap : bool) n : 0 <= n < 365 + (if leap then 1 else 0) -> yday_ok leap n = true.
Proof.
  destruct leap; intros H.
  - assert (S : sweep (yday_ok true) 366 = true) by (vm_compute; reflexivity).
    apply (sweep_spec _ _ S); lia.
  - assert (S : sweep (yday_ok false) 365 = true) by (vm_compute; reflexivity).
    apply (sweep_spec _ _ S); lia.
Qed.

Lemma ord2ymd_ok o : 1 <= o ->
  let '(y, m, d) := ord2ymd o in
  1 <= y /\ civil y m d /\ ymd2ord y m d = o.
Proof.
  intros Ho. unfold ord2ymd.
  set (n := o - 1). assert (Hn : 0 <= n) by (subst n; lia).
  set (a := n / 146097). set (n1 := n mod 146097).
  set (b := n1 / 36524). set (n2 := n1 mod 36524).
  set (c := n2 / 1461). set (n3 := n2 mod 1461).
  set (e := n3 / 365). set (n4 := n3 mod 365).
  assert (Ea : n = 146097 * a + n1 /\ 0 <= n1 < 146097 /\ 0 <= a) by (subst a n1; lia).
  assert (Eb : n1 = 36524 * b + n2 /\ 0 <= n2 < 36524 /\ 0 <= b <= 4)
    by (subst b n2; clearbody n1; lia).
  assert (Ec : n2 = 1461 * c + n3 /\ 0 <= n3 < 1461 /\ 0 <= c <= 24)
    by (subst c n3; clearbody n2; lia).
  assert (Ee : n3 = 365 * e + n4 /\ 0 <= n4 < 365 /\ 0 <= e <= 4)
    by (subst e n4; clearbody n3; lia).
  clearbody a n1 b n2 c n3 e n4.
  assert (Eo : o = n + 1) by (subst n; lia). clearbody n.
  set (y := a * 400 + 1 + b * 100 + c * 4 + e).
  destruct ((e =? 4) || (b =? 4)) eqn:S.
  - assert (HL : is_leap (y - 1) = true).
    { unfold is_leap. subst y.
      assert (e = 4 \/ b = 4) as [->| ->] by lia.
      - assert (b <= 3) by lia.
        assert (c <= 23 \/ (c = 24 /\ b = 3)) as [?|[-> ->]] by lia.
        + assert (H4: (a * 400 + 1 + b * 100 + c * 4 + 4 - 1) mod 4 = 0) by lia.
          assert (H5: (a * 400 + 1 + b * 100 + c * 4 + 4 - 1) mod 100 <> 0) by lia.
          rewrite H4. apply Z.eqb_neq in H5. rewrite H5. reflexivity.
        + assert (H4: (a * 400 + 1 + 3 * 100 + 24 * 4 + 4 - 1) mod 4 = 0) by lia.
          assert (H5: (a * 400 + 1 + 3 * 100 + 24 * 4 + 4 - 1) mod 400 = 0) by lia.
          rewrite H4, H5. rewrite orb_true_r. reflexivity.
      - assert (c = 0 /\ e = 0) as [-> ->] by lia.
        assert (H4: (a * 400 + 1 + 4 * 100 + 0 * 4 + 0 - 1) mod 4 = 0) by lia.
        assert (H5: (a * 400 + 1 + 4 * 100 + 0 * 4 + 0 - 1) mod 400 = 0) by lia.
        rewrite H4, H5. rewrite orb_true_r. reflexivity. }
    split; [subst y; lia|]. split.
    + split; [lia|]. unfold days_in_month. simpl. lia.
    + unfold ymd2ord, days_before_month. rewrite HL. change (dbm_common 12) with 334.
      simpl ((2 <? 12) && true). cbv iota.
      assert (D : days_before_year (y - 1) = days_before_year y - 366).
      { pose proof (dby_step (y - 1)) as D. unfold leapZ in D. rewrite HL in D.
        replace (y - 1 + 1) with y in D by lia. lia. }
      rewrite D. unfold days_before_year.
      set (p := y - 1).
      assert (Ep : p = 400 * a + 100 * b + 4 * c + e) by (subst p y; lia). clearbody p.
      assert (e = 4 \/ b = 4) as [->| ->] by lia.
      * assert (b <= 3) by lia.
        assert (c <= 23 \/ (c = 24 /\ b = 3)) as [?|[-> ->]] by lia.
        ** assert (p / 4 = 100 * a + 25 * b + c + 1) as -> by (apply divq; clear D; lia).
          assert (p / 100 = 4 * a + b) as -> by (apply divq; clear D; lia).
          assert (p / 400 = a) as -> by (apply divq; clear D; lia). lia.
        ** assert (p / 4 = 100 * a + 100) as -> by (apply divq; clear D; lia).
          assert (p / 100 = 4 * a + 4) as -> by (apply divq; clear D; lia).
          assert (p / 400 = a + 1) as -> by (apply divq; clear D; lia). lia.
      * assert (c = 0 /\ e = 0) as [-> ->] by lia.
        assert (p / 4 = 100 * a + 100) as -> by (apply divq; clear D; lia).
        assert (p / 100 = 4 * a + 4) as -> by (apply divq; clear D; lia).
        assert (p / 400 = a + 1) as -> by (apply divq; clear D; lia). lia.
  - assert (HL : is_leap y = (e =? 3) && (negb (c =? 24) || (b =? 3))).
    { unfold is_leap. subst y.
      assert (0 <= e <= 3) by lia. assert (0 <= b <= 3) by lia.
      destruct (e =? 3) eqn:E3.
      - assert (e = 3) by lia. subst e.
        assert (H4: (a * 400 + 1 + b * 100 + c * 4 + 3) mod 4 = 0) by lia.
        rewrite H4. cbn [Z.eqb andb].
        destruct (c =? 24) eqn:E24.
        + assert (c = 24) by lia. subst c.
          assert (H5: (a * 400 + 1 + b * 100 + 24 * 4 + 3) mod 100 = 0) by lia.
          rewrite H5. cbn [Z.eqb negb orb]. lia.
        + assert (H5: (a * 400 + 1 + b * 100 + c * 4 + 3) mod 100 <> 0) by lia.
          apply Z.eqb_neq in H5. rewrite H5. reflexivity.
      - assert (H4: (a * 400 + 1 + b * 100 + c * 4 + e) mod 4 <> 0) by lia.
        apply Z.eqb_neq in H4. rewrite H4. reflexivity. }
    rewrite <- HL.
    assert (Y : yday_ok (is_leap y) n4 = true).
    { apply yday_month_ok. destruct (is_leap y); lia. }
    unfold yday_ok in Y.
    set (m := yday_month (is_leap y) n4) in *.
    rewrite !andb_true_iff in Y. destruct Y as [[[Y1 Y2] Y3] Y4].
    fold (days_before_month y m) in *. fold (days_before_month y (m + 1)) in *.
    apply Z.leb_le in Y1, Y2, Y3. apply Z.ltb_lt in Y4.
    rewrite dbm_step in Y4 by lia.
    split; [subst y; lia|]. split; [split; lia|].
    unfold ymd2ord.
    assert (D : days_before_year y = n - n4).
    { unfold days_before_year.
      set (p := y - 1).
      assert (Ep : p = 400 * a + 100 * b + 4 * c + e) by (subst p y; lia).
      clearbody p.
      assert (0 <= e <= 3 /\ 0 <= b <= 3) by lia.
      assert (p / 4 = 100 * a + 25 * b + c) as -> by (apply divq; lia).
      assert (p / 100 = 4 * a + b) as -> by (apply divq; lia).
      assert (p / 400 = a) as -> by (apply divq; lia). lia. }
    lia.
Qed.

Lemma ord2ymd_eta o : ord2ymd o = (year_of o, month_of o, day_of o).
Proof. unfold year_of, month_of, day_of. destruct (ord2ymd o) as [[? ?] ?]. reflexivity. Qed.

Lemma ord_civil o : 1 <= o -> civil (year_of o) (month_of o) (day_of o).
Proof. intros H. pose proof (ord2ymd_ok o H) as K. rewrite ord2ymd_eta in K. tauto. Qed.

Lemma ord_roundtrip o : 1 <= o -> ymd2ord (year_of o) (month_of o) (day_of o) = o.
Proof. intros H. pose proof (ord2ymd_ok o H) as K. rewrite ord2ymd_eta in K. tauto. Qed.

Lemma year_ge1 o : 1 <= o -> 1 <= year_of o.
Proof. intros H. pose proof (ord2ymd_ok o H) as K. rewrite ord2ymd_eta in K. tauto. Qed.

Lemma ymd2ord_pos y m d : 1 <= y -> civil y m d -> 1 <= ymd2ord y m d.
Proof.
  intros Hy C. pose proof (civil_yday _ _ _ C). unfold ymd2ord.
  assert (days_before_year 1 <= days_before_year y) by (apply dby_mono; lia).
  assert (days_before_year 1 = 0) by reflexivity. lia.
Qed.

Lemma ymd_roundtrip y m d : 1 <= y -> civil y m d -> ord2ymd (ymd2ord y m d) = (y, m, d).
Proof.
  intros Hy C. pose proof (ymd2ord_pos _ _ _ Hy C) as P.
  rewrite ord2ymd_eta. apply ymd2ord_inj.
  - apply ord_civil; exact P.
  - exact C.
  - apply ord_roundtrip; exact P.
Qed.

Lemma ymd_year y m d : 1 <= y -> civil y m d -> year_of (ymd2ord y m d) = y.
Proof. intros A B. unfold year_of. rewrite ymd_roundtrip; auto. Qed.
Lemma ymd_month y m d : 1 <= y -> civil y m d -> month_of (ymd2ord y m d) = m.
Proof. intros A B. unfold month_of. rewrite ymd_roundtrip; auto. Qed.
Lemma ymd_day y m d : 1 <= y -> civil y m d -> day_of (ymd2ord y m d) = d.
Proof. intros A B. unfold day_of. rewrite ymd_roundtrip; auto. Qed.

Lemma max_ord : ymd2ord 9999 12 31 = MAXORD.
Proof. reflexivity. Qed.

Lemma year_le_iff o : 1 <= o -> (year_of o <= MAXYEAR <-> o <= MAXORD).
Proof.
  intros H. pose proof (ord_civil o H) as C. pose proof (ord_roundtrip o H) as R.
  assert (C' : civil 9999 12 31) by (split; [lia|vm_compute; split; discriminate]).
  pose proof (ymd2ord_lt _ _ _ _ _ _ C' C) as L.
  rewrite R, max_ord in L.
  destruct C as [C1 C2]. unfold MAXYEAR.
  split; intros K.
  - pose proof (civil_yday _ _ _ (conj C1 C2)) as Y.
    assert (dl: days_before_year (year_of o) + 365 + leapZ (year_of o) <= MAXORD).
    { rewrite <- dby_step. transitivity (days_before_year 10000).
      - apply dby_mono. lia.
      - vm_compute. discriminate. }
    unfold ymd2ord in R. lia.
  - lia.
Qed.

(** ordering of dates is the lexicographic ordering of (year, month, day) *)
Definition mi (o : Z) : Z := year_of o * 12 + month_of o - 1.

Lemma month_range o : 1 <= o -> 1 <= month_of o <= 12.
Proof. intros H. apply (ord_civil o H). Qed.
Lemma day_range o : 1 <= o -> 1 <= day_of o <= days_in_month (year_of o) (month_of o).
Proof. intros H. apply (ord_civil o H). Qed.

Lemma mi_div o : 1 <= o -> mi o / 12 = year_of o /\ mi o mod 12 + 1 = month_of o.
Proof. intros H. pose proof (month_range o H). unfold mi. lia. Qed.

Lemma ord_lt_mi a b : 1 <= a -> 1 <= b -> mi a < mi b -> a < b.
Proof.
  intros Ha Hb H.
  rewrite <- (ord_roundtrip a Ha), <- (ord_roundtrip b Hb).
  apply ymd2ord_lt; try (apply ord_civil; assumption).
  pose proof (month_range a Ha). pose proof (month_range b Hb).
  unfold mi in H. lia.
Qed.

Lemma ord_lt_day a b : 1 <= a -> 1 <= b -> mi a = mi b -> (a < b <-> day_of a < day_of b).
Proof.
  intros Ha Hb H.
  assert (E : year_of a = year_of b /\ month_of a = month_of b).
  { pose proof (month_range a Ha). pose proof (month_range b Hb).
    unfold mi in H. lia. }
  destruct E as [E1 E2].
  pose proof (ord_roundtrip a Ha) as Ra. pose proof (ord_roundtrip b Hb) as Rb.
  rewrite E1, E2 in Ra. unfold ymd2ord in *. lia.
Qed.

Lemma ord_diff_day a b : 1 <= a -> 1 <= b -> mi a = mi b -> b - a = day_of b - day_of a.
Proof.
  intros Ha Hb H.
  assert (E : year_of a = year_of b /\ month_of a = month_of b).
  { pose proof (month_range a Ha). pose proof (month_range b Hb).
    unfold mi in H. lia. }
  destruct E as [E1 E2].
  pose proof (ord_roundtrip a Ha) as Ra. pose proof (ord_roundtrip b Hb) as Rb.
  rewrite E1, E2 in Ra. unfold ymd2ord in *. lia.
Qed.

Lemma mi_mono a b : 1 <= a -> a <= b -> mi a <= mi b.
Proof.
  intros Ha Hab. destruct (Z_le_gt_dec (mi a) (mi b)); [assumption|].
  pose proof (ord_lt_mi b a). lia.
Qed.

Lemma ord_eq_civil a b : 1 <= a -> 1 <= b -> mi a = mi b -> day_of a = day_of b -> a = b.
Proof. intros Ha Hb H D. pose proof (ord_diff_day a b Ha Hb H). lia. Qed.

(** the first of the month with index [k] (k = 12*year + month - 1) *)
Definition month_start (k : Z) : Z := ymd2ord (k / 12) (k mod 12 + 1) 1.

Lemma civil_first y m : 1 <= m <= 12 -> civil y m 1.
Proof. intros H. split; [lia|]. pose proof (dim_range y m). lia. Qed.

Lemma month_start_next k : month_start (k + 1) = month_start k + days_in_month (k / 12) (k mod 12 + 1).
Proof.
  unfold month_start, ymd2ord.
  destruct (Z.eq_dec (k mod 12) 11) as [E|E].
  - assert ((k + 1) / 12 = k / 12 + 1) as -> by lia.
    assert ((k + 1) mod 12 = 0) as -> by lia.
    rewrite E. rewrite dby_step. simpl (0 + 1). simpl (11 + 1).
    rewrite dbm_1.
    pose proof (dbm_step (k / 12) 12). rewrite dbm_13 in H. lia.
  - assert ((k + 1) / 12 = k / 12) as -> by lia.
    assert ((k + 1) mod 12 = k mod 12 + 1) as -> by lia.
    rewrite (dbm_step (k / 12) (k mod 12 + 1)) by lia. lia.
Qed.

Lemma month_start_of o : 1 <= o -> month_start (mi o) = o - day_of o + 1.
Proof.
  intros H. destruct (mi_div o H) as [E1 E2]. unfold month_start. rewrite E1, E2.
  pose proof (ord_roundtrip o H). unfold ymd2ord in *. lia.
Qed.

Lemma month_start_add k d : 12 <= k -> 1 <= d <= days_in_month (k / 12) (k mod 12 + 1) ->
  let o := month_start k + d - 1 in
  1 <= o /\ mi o = k /\ day_of o = d.
Proof.
  intros Hk Hd o.
  assert (Eo : o = ymd2ord (k / 12) (k mod 12 + 1) d) by (subst o; unfold month_start, ymd2ord; lia).
  assert (C : civil (k / 12) (k mod 12 + 1) d) by (split; lia).
  assert (1 <= k / 12) by lia.
  rewrite Eo. split; [apply ymd2ord_pos; assumption|].
  unfold mi. rewrite ymd_year, ymd_month, ymd_day by assumption. lia.
Qed.

Lemma month_start_pos k : 12 <= k -> 1 <= month_start k.
Proof. intros H. pose proof (dim_range (k / 12) (k mod 12 + 1)).
  pose proof (month_start_add k 1 H). simpl in H1. lia. Qed.

(** successor law: the model's civil dates follow the calendar *)
Definition next_day (t : Z * Z * Z) : Z * Z * Z :=
  let '(y, m, d) := t in
  if d <? days_in_month y m then (y, m, d + 1)
  else if m <? 12 then (y, m + 1, 1)
  else (y + 1, 1, 1).

Lemma ord2ymd_first : ord2ymd 1 = (1, 1, 1).
Proof. reflexivity. Qed.

Lemma ord2ymd_succ o : 1 <= o -> ord2ymd (o + 1) = next_day (ord2ymd o).
Proof.
  intros H. rewrite (ord2ymd_eta o).
  pose proof (ord_civil o H) as C. pose proof (ord_roundtrip o H) as R.
  pose proof (year_ge1 o H) as Y.
  set (y := year_of o) in *. set (m := month_of o) in *. set (d := day_of o) in *.
  destruct C as [C1 C2]. simpl.
  destruct (d <? days_in_month y m) eqn:E1.
  - rewrite <- (ymd_roundtrip y m (d + 1)); [|lia|split; lia].
    f_equal. unfold ymd2ord in *. lia.
  - destruct (m <? 12) eqn:E2.
    + assert (civil y (m + 1) 1) by (apply civil_first; lia).
      rewrite <- (ymd_roundtrip y (m + 1) 1); [|lia|assumption].
      f_equal. unfold ymd2ord in *. rewrite dbm_step by lia. lia.
    + assert (m = 12) by lia.
      assert (civil (y + 1) 1 1) by (apply civil_first; lia).
      rewrite <- (ymd_roundtrip (y + 1) 1 1); [|lia|assumption].
      f_equal. unfold ymd2ord in *. rewrite dby_step, dbm_1.
      pose proof (dbm_step y 12 ltac:(lia)) as K. change (12 + 1) with 13 in K.
      rewrite dbm_13 in K. rewrite H0 in *. lia.
Qed.

(** [py_date] *)
Lemma py_date_ok y m d o : py_date y m d = Ok o ->
  1 <= y <= MAXYEAR /\ civil y m d /\ o = ymd2ord y m d /\ 1 <= o <= MAXORD
  /\ year_of o = y /\ month_of o = m /\ day_of o = d.
Proof.
  unfold py_date. destruct (negb _); [discriminate|].
  destruct (valid_ymd y m d) eqn:V; [|discriminate].
  intros E. injection E as <-.
  unfold valid_ymd in V. rewrite !andb_true_iff, !Z.leb_le in V.
  assert (C : civil y m d) by (split; lia).
  assert (Y1 : 1 <= y) by lia.
  pose proof (ymd2ord_pos y m d Y1 C) as P.
  pose proof (ymd_year y m d Y1 C).
  pose proof (ymd_month y m d Y1 C). pose proof (ymd_day y m d Y1 C).
  pose proof (year_le_iff _ P). repeat split; try tauto; try lia; apply C.
Qed.

Lemma py_date_valid y m d : 1 <= y <= MAXYEAR -> civil y m d -> py_date y m d = Ok (ymd2ord y m d).
Proof.
  intros Y [Cm Cd]. pose proof (dim_range y m). unfold py_date, c_int, INT_MIN, INT_MAX, valid_ymd, MAXYEAR in *.
  replace (negb _) with false by lia.
  replace (_ && _) with true by lia. reflexivity.
Qed.

Lemma weekday_range o : 0 <= weekday o <= 6.
Proof. unfold weekday. lia. Qed.

Lemma dim_not_feb29 y y' m d : ~ (m = 2 /\ d = 29) -> d <= days_in_month y m -> d <= days_in_month y' m.
Proof.
  intros H. unfold days_in_month.
  destruct (m =? 2) eqn:E; [|tauto].
  destruct (is_leap y), (is_leap y'); lia.
Qed.

Lemma ymd2ord_month_start k d :
  ymd2ord (k / 12) (k mod 12 + 1) d = month_start k + d - 1.
Proof. unfold month_start, ymd2ord. lia. Qed.
