(** ISO weeks: the week belongs to the year of its Thursday. *)
From Verif Require Import Base PyDate DateFacts IsoWeek.
From Coq Require Import ZifyBool.
Ltac Zify.zify_post_hook ::= Z.div_mod_to_equations.

(** ISO 8601, without reference to the code *)
Definition thursday (o : Z) : Z := o - weekday o + 3.
Definition iso_year (o : Z) : Z := year_of (thursday o).
Definition iso_week (o : Z) : Z := (thursday o - ymd2ord (iso_year o) 1 1) / 7 + 1.
Definition iso_day (o : Z) : Z := weekday o + 1.

Local Opaque ord2ymd year_of month_of day_of ymd2ord days_in_month is_leap days_before_year iso_week1_monday.

Lemma jan1_eq y : ymd2ord y 1 1 = days_before_year y + 1.
Proof. Local Transparent ymd2ord. unfold ymd2ord. rewrite dbm_1. lia. Qed.
Local Opaque ymd2ord.

Lemma jan1_step y : ymd2ord (y + 1) 1 1 = ymd2ord y 1 1 + 365 + leapZ y.
Proof. rewrite !jan1_eq, dby_step. lia. Qed.

Lemma jan_day y d : ymd2ord y 1 d = ymd2ord y 1 1 + d - 1.
Proof. Local Transparent ymd2ord. unfold ymd2ord. lia. Qed.
Local Opaque ymd2ord.

Lemma dec31 y : ymd2ord y 12 31 = ymd2ord (y + 1) 1 1 - 1.
Proof.
  Local Transparent ymd2ord. rewrite jan1_step. unfold ymd2ord.
  pose proof (dbm_step y 12 ltac:(lia)). change (12 + 1) with 13 in H. rewrite dbm_13 in H.
  assert (days_in_month y 12 = 31) by reflexivity. rewrite dbm_1. lia.
Qed.
Local Opaque ymd2ord.

Lemma civil_first' y : civil y 1 1.
Proof. apply civil_first. lia. Qed.

Lemma year_bounds o : 1 <= o -> ymd2ord (year_of o) 1 1 <= o < ymd2ord (year_of o + 1) 1 1.
Proof.
  intros H. pose proof (ord_roundtrip o H) as R. pose proof (ord_civil o H) as C.
  pose proof (civil_yday _ _ _ C) as Y. rewrite jan1_step, jan1_eq.
  Local Transparent ymd2ord. unfold ymd2ord in R. lia.
Qed.
Local Opaque ymd2ord.

Lemma jan1_mono y y' : y <= y' -> ymd2ord y 1 1 <= ymd2ord y' 1 1.
Proof. intros H. rewrite !jan1_eq. pose proof (dby_mono y y' H). lia. Qed.

Lemma year_unique o y : 1 <= o -> ymd2ord y 1 1 <= o < ymd2ord (y + 1) 1 1 -> year_of o = y.
Proof.
  intros H B. pose proof (year_bounds o H).
  destruct (Z.lt_trichotomy (year_of o) y) as [L|[L|L]]; [exfalso|exact L|exfalso].
  - pose proof (jan1_mono (year_of o + 1) y ltac:(lia)). lia.
  - pose proof (jan1_mono (y + 1) (year_of o) ltac:(lia)). lia.
Qed.

Lemma w1_spec y : ymd2ord y 1 1 - 3 <= iso_week1_monday y <= ymd2ord y 1 1 + 3
  /\ weekday (iso_week1_monday y) = 0.
Proof.
  Local Transparent iso_week1_monday. unfold iso_week1_monday, weekday. cbv zeta.
  destruct (3 <? (ymd2ord y 1 1 + 6) mod 7) eqn:E; lia.
Qed.
Local Opaque iso_week1_monday.

Lemma iso_year_iff o y : 1 <= o ->
  (iso_year o = y <-> iso_week1_monday y <= o < iso_week1_monday (y + 1)).
Proof.
  intros H. destruct (w1_spec y) as [W1 W2]. destruct (w1_spec (y + 1)) as [V1 V2].
  assert (T : 1 <= thursday o) by (unfold thursday, weekday; lia).
  split.
  - intros <-. unfold iso_year in *. pose proof (year_bounds _ T) as B.
    unfold thursday, weekday in *. set (y := year_of _) in *. lia.
  - intros B. unfold iso_year. apply year_unique; [exact T|].
    unfold thursday, weekday in *. lia.
Qed.

Lemma iso_week_eq o : 1 <= o -> iso_week o = (o - iso_week1_monday (iso_year o)) / 7 + 1.
Proof.
  intros H. destruct (w1_spec (iso_year o)) as [W1 W2].
  pose proof (proj1 (iso_year_iff o _ H) eq_refl) as B.
  unfold iso_week. unfold thursday, weekday in *. set (y := iso_year o) in *.
  set (j := ymd2ord y 1 1) in *. set (w := iso_week1_monday y) in *. lia.
Qed.

Lemma isocalendar_ok o : 1 <= o -> isocalendar o = (iso_year o, iso_week o, iso_day o).
Proof.
  intros H. pose proof (year_bounds o H) as YB. set (y := year_of o) in *.
  pose proof (jan1_step y) as J1. pose proof (jan1_step (y - 1)) as J0.
  replace (y - 1 + 1) with y in J0 by lia.
  pose proof (leapZ_range y) as L1. pose proof (leapZ_range (y - 1)) as L0.
  destruct (w1_spec y) as [W1 W2]. destruct (w1_spec (y + 1)) as [V1 V2]. destruct (w1_spec (y - 1)) as [U1 U2].
  rewrite iso_week_eq by assumption.
  unfold isocalendar. fold y. cbv zeta.
  destruct ((o - iso_week1_monday y) / 7 <? 0) eqn:E1.
  - assert (Y : iso_year o = y - 1) by (apply iso_year_iff; [assumption|]; replace (y - 1 + 1) with y by lia; lia).
    rewrite Y. f_equal. unfold iso_day, weekday in *. lia.
  - destruct ((52 <=? (o - iso_week1_monday y) / 7) && (iso_week1_monday (y + 1) <=? o)) eqn:E2.
    + assert (Y : iso_year o = y + 1).
      { apply iso_year_iff; [assumption|]. destruct (w1_spec (y + 1 + 1)) as [X1 X2].
        pose proof (jan1_step (y + 1)). pose proof (leapZ_range (y + 1)). lia. }
      rewrite Y. unfold iso_day, weekday in *. f_equal; [f_equal|]; lia.
    + assert (Y : iso_year o = y) by (apply iso_year_iff; [assumption|]; unfold weekday in *; lia).
      rewrite Y. unfold iso_day, weekday in *. f_equal. lia.
Qed.

Lemma iso_inj a b : 1 <= a -> 1 <= b -> iso_year a = iso_year b -> iso_week a = iso_week b ->
  iso_day a = iso_day b -> a = b.
Proof.
  intros A B Y W D. rewrite !iso_week_eq in W by assumption. rewrite Y in W.
  destruct (w1_spec (iso_year b)) as [W1 W2]. unfold iso_day, weekday in *. lia.
Qed.

Lemma weeknr2date_eq y w d : 1 <= y <= MAXYEAR ->
  1 <= iso_week1_monday y + 7 * (w - 1) <= MAXORD ->
  1 <= iso_week1_monday y + 7 * (w - 1) + (d - 1) <= MAXORD ->
  weeknr2date y w None = Ok (iso_week1_monday y + 7 * (w - 1))
  /\ weeknr2date y w (Some d) = Ok (iso_week1_monday y + 7 * (w - 1) + (d - 1)).
Proof.
  intros Hy R1 R2. unfold weeknr2date.
  assert (C : civil y 1 4) by (split; [lia|]; pose proof (dim_range y 1); lia).
  rewrite py_date_valid by assumption. cbn [rbind].
  pose proof (ymd2ord_pos y 1 4 ltac:(lia) C) as P.
  rewrite isocalendar_ok by assumption.
  destruct (w1_spec y) as [W1 W2]. destruct (w1_spec (y + 1)) as [V1 V2].
  pose proof (jan1_step y) as J. pose proof (leapZ_range y) as L. pose proof (jan_day y 4) as J4.
  assert (Y : iso_year (ymd2ord y 1 4) = y) by (apply iso_year_iff; lia).
  assert (IW : iso_week (ymd2ord y 1 4) = 1) by (rewrite iso_week_eq, Y by assumption; lia).
  rewrite IW. change (1 =? 1) with true. cbn [rbind].
  assert (M : ymd2ord y 1 4 + - weekday (ymd2ord y 1 4) = iso_week1_monday y)
    by (unfold weekday in *; lia).
  assert (M1 : 1 <= iso_week1_monday y).
  { rewrite <- M. unfold weekday. lia. }
  assert (JM : ymd2ord y 1 4 <= MAXORD).
  { destruct (py_date_ok _ _ _ _ (py_date_valid y 1 4 Hy C)) as (_ & _ & _ & X & _). lia. }
  assert (M2 : iso_week1_monday y <= MAXORD) by (rewrite <- M; unfold weekday; lia).
  unfold date_add. rewrite M.
  replace ((1 <=? iso_week1_monday y) && (iso_week1_monday y <=? MAXORD)) with true by lia. cbn [rbind].
  replace ((1 <=? iso_week1_monday y + 7 * (w - 1)) && (iso_week1_monday y + 7 * (w - 1) <=? MAXORD)) with true by lia.
  cbn [rbind]. split; [reflexivity|].
  match goal with |- context [if ?b then _ else _] => replace b with true by lia end. reflexivity.
Qed.

Lemma weeks_in_year_eq y : 1 <= y <= MAXYEAR ->
  exists n, weeks_in_year y = Ok n /\ (n = 52 \/ n = 53)
    /\ iso_week1_monday (y + 1) = iso_week1_monday y + 7 * n.
Proof.
  intros Hy. unfold weeks_in_year.
  rewrite !py_date_valid; try assumption; [|split; [lia|]; assert (days_in_month y 12 = 31) by reflexivity; lia
    |apply civil_first'].
  cbn [rbind]. rewrite dec31.
  destruct (w1_spec y) as [W1 W2]. destruct (w1_spec (y + 1)) as [V1 V2].
  pose proof (jan1_step y) as J. pose proof (leapZ_range y) as L.
  unfold isoweekday, weekday in *.
  destruct (((ymd2ord y 1 1 + 6) mod 7 + 1 =? 4) || ((ymd2ord (y + 1) 1 1 - 1 + 6) mod 7 + 1 =? 4)) eqn:E.
  - exists 53. split; [reflexivity|]. split; [auto|]. lia.
  - exists 52. split; [reflexivity|]. split; [auto|]. lia.
Qed.

Lemma iso_of_offset y w d n : 1 <= y <= MAXYEAR -> weeks_in_year y = Ok n -> 1 <= w <= n -> 1 <= d <= 7 ->
  let o := iso_week1_monday y + 7 * (w - 1) + (d - 1) in
  1 <= o /\ iso_year o = y /\ iso_week o = w /\ iso_day o = d.
Proof.
  intros Hy N Hw Hd o. destruct (weeks_in_year_eq y Hy) as (n' & N' & _ & E). rewrite N in N'. injection N' as <-.
  destruct (w1_spec y) as [W1 W2].
  pose proof (ymd2ord_pos y 1 1 ltac:(lia) (civil_first' y)) as P.
  assert (O1 : 1 <= o) by (subst o; unfold weekday in W2; lia).
  assert (Y : iso_year o = y) by (apply iso_year_iff; [assumption|subst o; lia]).
  split; [exact O1|]. split; [exact Y|]. rewrite iso_week_eq, Y by assumption.
  unfold iso_day, weekday in *. subst o. lia.
Qed.

(** from a day to its ISO week and back *)
Lemma weeknr2date_of_iso o : 1 <= o <= MAXORD ->
  weeknr2date (iso_year o) (iso_week o) (Some (iso_day o)) = Ok o
  /\ weeknr2date (iso_year o) (iso_week o) None = Ok (o - weekday o).
Proof.
  intros H. set (y := iso_year o).
  pose proof (proj1 (iso_year_iff o y ltac:(lia)) eq_refl) as B.
  assert (T : 1 <= thursday o) by (unfold thursday, weekday; lia).
  assert (Y1 : 1 <= y <= MAXYEAR).
  { split; [unfold y, iso_year; now apply year_ge1|].
    destruct (w1_spec y) as [W1 W2].
    destruct (Z_le_gt_dec y MAXYEAR) as [L|L]; [exact L|exfalso].
    pose proof (jan1_mono (MAXYEAR + 1) y ltac:(lia)) as M.
    assert (X : ymd2ord (MAXYEAR + 1) 1 1 = MAXORD + 1) by (vm_compute; reflexivity).
    assert (W3 : weekday (MAXORD + 1) = 5) by (vm_compute; reflexivity).
    destruct (w1_spec (MAXYEAR + 1)) as [V1 V2].
    assert (iso_week1_monday (MAXYEAR + 1) = MAXORD + 3) by (vm_compute; reflexivity).
    destruct (Z.eq_dec y (MAXYEAR + 1)) as [E|E]; [rewrite E in *; lia|].
    pose proof (jan1_mono (MAXYEAR + 1 + 1) y ltac:(lia)) as M2. rewrite jan1_step in M2.
    pose proof (leapZ_range (MAXYEAR + 1)). lia. }
  destruct (w1_spec y) as [W1 W2].
  pose proof (ymd2ord_pos y 1 1 ltac:(lia) (civil_first' y)) as P.
  assert (W : iso_week o = (o - iso_week1_monday y) / 7 + 1) by (apply iso_week_eq; lia).
  assert (E : iso_week1_monday y + 7 * (iso_week o - 1) = o - weekday o).
  { rewrite W. unfold weekday in *. lia. }
  destruct (weeknr2date_eq y (iso_week o) (iso_day o) Y1) as [A1 A2].
  - rewrite E. unfold weekday in *. lia.
  - rewrite E. unfold iso_day, weekday in *. lia.
  - rewrite A1, A2, E. unfold iso_day. split; f_equal; lia.
Qed.

Lemma weeknr2date_sound y w d n o : 1 <= y <= MAXYEAR -> weeks_in_year y = Ok n -> 1 <= w <= n -> 1 <= d <= 7 ->
  weeknr2date y w (Some d) = Ok o ->
  1 <= o <= MAXORD /\ iso_year o = y /\ iso_week o = w /\ iso_day o = d.
Proof.
  intros Hy N Hw Hd E.
  pose proof (iso_of_offset y w 1 n Hy N Hw ltac:(lia)) as O1; cbv zeta in O1; destruct O1 as (O1 & _).
  pose proof (iso_of_offset y w d n Hy N Hw Hd) as O2; cbv zeta in O2; destruct O2 as (O2 & O3).
  destruct (Z_le_gt_dec (iso_week1_monday y + 7 * (w - 1) + (d - 1)) MAXORD) as [L|L].
  - destruct (weeknr2date_eq y w d Hy) as [_ A]; [lia|lia|]. rewrite A in E.
    assert (X : o = iso_week1_monday y + 7 * (w - 1) + (d - 1)) by congruence. rewrite X.
    split; [lia|exact O3].
  - exfalso. destruct (Z_le_gt_dec (iso_week1_monday y + 7 * (w - 1)) MAXORD) as [L2|L2].
    + destruct (weeknr2date_eq y w 1 Hy) as [A _]; [lia|lia|].
      unfold weeknr2date in *. destruct (py_date y 1 4) as [j| |]; try discriminate. cbn [rbind] in *.
      destruct (isocalendar j) as [[? iw] ?].
      destruct (if iw =? 1 then Ok j else date_add j 7) as [k| |]; try discriminate. cbn [rbind] in *.
      destruct (date_add k (- weekday k)) as [m| |]; try discriminate. cbn [rbind] in *.
      destruct (date_add m (7 * (w - 1))) as [q| |]; try discriminate. cbn [rbind] in *.
      assert (q = iso_week1_monday y + 7 * (w - 1)) by congruence. subst q. unfold date_add in E.
      match type of E with (if ?b then _ else _) = _ => destruct b eqn:? end; [|discriminate]. lia.
    + destruct (weeknr2date_eq y 1 1 Hy) as [A _].
      * pose proof (iso_of_offset y 1 1 n Hy N ltac:(lia) ltac:(lia)) as Q; cbv zeta in Q; destruct Q as (Q & _).
        destruct (w1_spec y) as [W1 W2].
        pose proof (jan1_mono y MAXYEAR ltac:(lia)) as M.
        assert (X : ymd2ord MAXYEAR 1 1 = MAXORD - 364) by (vm_compute; reflexivity). lia.
      * pose proof (iso_of_offset y 1 1 n Hy N ltac:(lia) ltac:(lia)) as Q; cbv zeta in Q; destruct Q as (Q & _).
        destruct (w1_spec y) as [W1 W2].
        pose proof (jan1_mono y MAXYEAR ltac:(lia)) as M.
        assert (X : ymd2ord MAXYEAR 1 1 = MAXORD - 364) by (vm_compute; reflexivity). lia.
      * unfold weeknr2date in *. destruct (py_date y 1 4) as [j| |]; try discriminate. cbn [rbind] in *.
        destruct (isocalendar j) as [[? iw] ?].
        destruct (if iw =? 1 then Ok j else date_add j 7) as [k| |]; try discriminate. cbn [rbind] in *.
        destruct (date_add k (- weekday k)) as [m| |]; try discriminate. cbn [rbind] in *.
        change (7 * (1 - 1)) with 0 in A. unfold date_add in A, E. rewrite Z.add_0_r in A.
        match type of A with context [if ?b then _ else _] => destruct b eqn:? end; [|discriminate]. cbn [rbind] in A.
        assert (AA : m = iso_week1_monday y + 0) by congruence.
        match type of E with context [if ?b then _ else _] => destruct b eqn:? end; [|discriminate]. lia.
Qed.

Lemma weeks_in_year_last y : 1 <= y <= MAXYEAR ->
  exists n, weeks_in_year y = Ok n /\ (n = 52 \/ n = 53)
    /\ (forall o, 1 <= o -> iso_year o = y -> 1 <= iso_week o <= n)
    /\ (forall w d, 1 <= w <= n -> 1 <= d <= 7 ->
          exists o, 1 <= o /\ iso_year o = y /\ iso_week o = w /\ iso_day o = d).
Proof.
  intros Hy. destruct (weeks_in_year_eq y Hy) as (n & N & N2 & E). exists n.
  split; [exact N|]. split; [exact N2|]. split.
  - intros o O1 OY. pose proof (proj1 (iso_year_iff o y O1) OY) as B.
    rewrite iso_week_eq, OY by assumption. lia.
  - intros w d Hw Hd. pose proof (iso_of_offset y w d n Hy N Hw Hd) as O. cbv zeta in O.
    eexists. exact O.
Qed.
