(** Exact limits of some properties: yearly rules on leap days (C06), which status
    keeps an event from blocking (C31), what iCalRepresentation accepts (C52) and
    which RRULEs give valid rules (C54). *)
From Verif Require Import Base PyDate DateFacts Recurrent SpecRecur RecurProofs RecurOrder RecurExact RecurSound RecurMain
  Util UtilProofs CalTime TimeProofs Event Storage QueryProofs BlockProofs ICal System RuleText SpecText TextProofs
  PropRecur PropEnd PropRaise PropQuery PropICal.
From Coq Require Import ZifyBool.
Ltac Zify.zify_post_hook ::= Z.div_mod_to_equations.
Local Opaque ord2ymd year_of month_of day_of ymd2ord days_in_month is_leap.

(** * C06 *)
(** year [y] has a day like [s] *)
Definition has_day (s y : Z) : Prop := exists d, 1 <= d <= MAXORD /\ year_of d = y /\ month_of d = month_of s /\ day_of d = day_of s.

Lemma has_day_dec s y : has_day s y \/ ~ has_day s y.
Proof.
  destruct (py_date y (month_of s) (day_of s)) as [o|x|] eqn:E.
  - left. apply py_date_ok in E as (_ & _ & _ & R & A & B & C). now exists o.
  - right. intros (d & R & A & B & C). pose proof (ord_civil d ltac:(lia)) as V. rewrite A, B, C in V.
    pose proof (proj1 (year_le_iff d ltac:(lia))) as _. pose proof (proj2 (year_le_iff d ltac:(lia)) ltac:(lia)). pose proof (year_ge1 d ltac:(lia)).
    rewrite py_date_valid in E by (assumption || lia). discriminate.
  - right. intros (d & R & A & B & C). pose proof (ord_civil d ltac:(lia)) as V. rewrite A, B, C in V.
    pose proof (proj2 (year_le_iff d ltac:(lia)) ltac:(lia)). pose proof (year_ge1 d ltac:(lia)).
    rewrite py_date_valid in E by (assumption || lia). discriminate.
Qed.

(** An expansion of a yearly rule finishes exactly if, before or at the day that
    cuts it off, every year it steps to has such a day; and what it has yielded
    then is exactly what the rule stands for. *)
Theorem C06_finishes_iff r dt ed : r_kind r = KYearly -> valid_rule r -> until_is_date r -> 1 <= dt_date dt <= MAXORD ->
  let s := dt_date dt in
  (exists l, yields r dt ed l)
  <-> exists c, s <= c <= MAXORD /\ on_day r s c = true /\ over (on_day r) r ed s c = true
      /\ forall k, 0 <= k -> year_of s + k * r_interval r <= year_of c -> has_day s (year_of s + k * r_interval r).
Proof.
  intros K V U R. cbv zeta. set (s := dt_date dt) in *. destruct (validate_inv r V) as (Hi & _).
  assert (KN : r_kind r <> KNo) by congruence.
  assert (CO : code_on r = on_day r) by (unfold code_on; now rewrite K).
  assert (ON : forall d, on_day r s d = true <-> day_of d = day_of s /\ month_of d = month_of s /\ exists j, year_of d = year_of s + j * r_interval r).
  { intros d. unfold on_day. rewrite K. unfold every. rewrite !andb_true_iff, !Z.eqb_eq. split.
    - intros [[A B] C]. split; [exact A|]. split; [exact B|]. apply Z.mod_divide in C; [|lia]. destruct C as (j & C). exists j. lia.
    - intros (A & B & j & C). split; [auto|]. rewrite C. replace (year_of s + j * r_interval r - year_of s) with (j * r_interval r) by lia. apply Z.mod_mul. lia. }
  split.
  - intros (l & N & Y). specialize (Y N (le_n N)). destruct (C80_finishes_exact N r dt ed l KN V U R Y) as (c & C1 & C2 & C3 & C4 & C5 & C6).
    fold s in C1, C2, C3, C4, C5, C6. rewrite CO in *. destruct C2 as [C2|C2]; [congruence|]. rewrite CO in C2.
    exists c. split; [exact C1|]. split; [exact C2|]. split; [exact C3|].
    intros k Hk. revert k Hk. apply (natlike_ind (fun k => year_of s + k * r_interval r <= year_of c -> has_day s (year_of s + k * r_interval r))).
    + intros _. exists s. split; [lia|]. split; [lia|auto].
    + intros k Hk IH Hc. destruct IH as (b & B1 & B2 & B3 & B4); [nia|].
      destruct (has_day_dec s (year_of s + Z.succ k * r_interval r)) as [Y1|Y1]; [exact Y1|]. exfalso.
      assert (LT : b < c) by (apply year_lt_ord; nia || lia).
      apply (C6 b LT). unfold no_step. rewrite K, CO. split; [|split].
      * assert (k = 0 \/ 0 < k) as [->|Hk'] by lia.
        -- assert (b = s); [|lia]. rewrite <- (ord_roundtrip b), <- (ord_roundtrip s) by lia. rewrite B2, B3, B4. f_equal. lia.
        -- apply Z.lt_le_incl. apply year_lt_ord; nia || lia.
      * apply ON. split; [exact B4|]. split; [exact B3|]. exists k. exact B2.
      * intros d Hd (D1 & D2 & D3). apply Y1. exists d. split; [exact Hd|]. split; [|auto]. rewrite D1, B2. lia.
  - intros (c & C1 & C2 & C3 & C4). destruct (C80_every_expansion r dt ed KN V U R) as (N & l & f & Y & [(-> & _)|(_ & b & B1 & B2 & B3 & _)]).
    { exists l, N. exact Y. }
    exfalso. fold s in B1, B2, B3. unfold no_step in B3. rewrite K, CO in B3. destruct B3 as (B3 & B4 & B5).
    assert (LT : b < c).
    { destruct (Z_lt_le_dec b c) as [X|X]; [exact X|]. unfold all_wanted in B2. rewrite CO in B2. rewrite (B2 c) in C3; [discriminate|lia|]. right. now rewrite CO. }
    apply ON in B4 as (E1 & E2 & j & E3). apply ON in C2 as (F1 & F2 & k & F3).
    assert (J0 : 0 <= j).
    { destruct (Z_lt_le_dec j 0) as [X|X]; [|exact X]. exfalso. assert (b < s); [|lia]. destruct (Z_lt_le_dec b 1); [lia|]. apply year_lt_ord; nia || lia. }
    assert (YJ : j < k).
    { destruct (Z_lt_le_dec j k) as [X|X]; [exact X|]. exfalso. assert (X' : j = k \/ k < j) by lia. destruct X' as [->|X'].
      - assert (b = c); [|lia]. rewrite <- (ord_roundtrip b), <- (ord_roundtrip c) by lia. rewrite E1, E2, E3, F1, F2, F3. reflexivity.
      - assert (c < b); [|lia]. apply year_lt_ord; nia || lia. }
    destruct (C4 (j + 1)) as (d & D1 & D2 & D3 & D4); [lia|rewrite F3; nia|]. apply (B5 d D1). split; [rewrite D2, E3; lia|auto].
Qed.
Print Assumptions C06_finishes_iff.

(** from 29 February: every fourth year until 2100, and not even one other year *)
Example C06_leap_case :
  let r4 := mkRule KYearly 4 (Some 3) None [] [] "monthday"%string in let r1 := mkRule KYearly 1 (Some 1) None [] [] "monthday"%string in
  apply 100 r4 feb29 None = ([ymd2ord 2024 2 29; ymd2ord 2028 2 29; ymd2ord 2032 2 29], GStop)
  /\ apply 100 (mkRule KYearly 4 None None [] [] "monthday"%string) feb29 (Some (VDate (ymd2ord 2099 1 1))) = (map (fun y => ymd2ord y 2 29) [2024; 2028; 2032; 2036; 2040; 2044; 2048; 2052; 2056; 2060; 2064; 2068; 2072; 2076; 2080; 2084; 2088; 2092; 2096], GRaise ValueError)
  /\ apply 100 r1 feb29 None = ([ymd2ord 2024 2 29], GRaise ValueError).
Proof. vm_compute. auto. Qed.

(** * C31 *)
(** What one event adds to the blocked time: its status matters only by being
    'CANCELED' or not ([takes_time], BlockProofs.v). *)
Theorem C31_adds_exact : forall F evs1 evs2 x atts begins ends tb te l1 l2,
  evs_ok (evs1 ++ x :: evs2) -> dt_ok begins = true -> dt_ok ends = true -> 0 <= tb < DAY /\ 0 <= te < DAY ->
  get_blocked F (evs1 ++ x :: evs2) atts begins ends tb te = Ok l1 ->
  get_blocked F (evs1 ++ evs2) atts begins ends tb te = Ok l2 ->
  forall t, begins <= t < ends ->
  (covers l1 t <-> covers l2 t
    \/ (e_status x <> "CANCELED"%string /\ e_transparent x = false
        /\ exists i st, In (Some i) atts /\ attends x i st /\ st <> "DECLINED"%string /\ st <> "DELEGATED"%string /\ happens x t)).
Proof.
  intros F evs1 evs2 x atts begins ends tb te l1 l2 OK OB OE W E1 E2 t T.
  assert (OK2 : evs_ok (evs1 ++ evs2)).
  { intros e H. apply OK. apply in_app_iff in H. apply in_app_iff. cbn. tauto. }
  rewrite (get_blocked_exact _ _ _ _ _ _ _ _ OK OB OE W E1 t T), (get_blocked_exact _ _ _ _ _ _ _ _ OK2 OB OE W E2 t T).
  enough (B : busy (evs1 ++ x :: evs2) atts t <-> busy (evs1 ++ evs2) atts t \/ exists i, In (Some i) atts /\ takes_time x i /\ happens x t).
  { rewrite B. unfold takes_time. split.
    - intros [H|[H|(i & H1 & (H2 & H3 & st & H4 & H5 & H6) & H7)]]; [left; now left|left; now right|right].
      split; [exact H3|]. split; [exact H2|]. exists i, st. auto.
    - intros [[H|H]|(H3 & H2 & i & st & H1 & H4 & H5 & H6 & H7)]; [now left|right; now left|right; right].
      exists i. split; [exact H1|]. split; [|exact H7]. split; [exact H2|]. split; [exact H3|]. exists st. auto. }
  split.
  - intros (i & e & H1 & H2 & H3 & H4). apply in_app_iff in H2. cbn in H2. destruct H2 as [H2|[<-|H2]].
    + left. exists i, e. split; [exact H1|]. split; [apply in_app_iff; now left|auto].
    + right. exists i. auto.
    + left. exists i, e. split; [exact H1|]. split; [apply in_app_iff; now right|auto].
  - intros [(i & e & H1 & H2 & H3 & H4)|(i & H1 & H2 & H3)].
    + exists i, e. split; [exact H1|]. split; [apply in_app_iff; apply in_app_iff in H2; cbn; tauto|auto].
    + exists i, x. split; [exact H1|]. split; [apply in_app_iff; cbn; tauto|auto].
Qed.
Print Assumptions C31_adds_exact.

(** the week of [store] without, and with, its first event *)
Example C31_adds_case : exists x q, store = [] ++ x :: q /\ evs_ok store
  /\ e_status x <> "CANCELED"%string /\ e_transparent x = false
  /\ get_blocked 50 store [alice; bob] (at_ 0 8) (at_ 1 0) (9 * HOUR) (17 * HOUR)
     <> get_blocked 50 q [alice; bob] (at_ 0 8) (at_ 1 0) (9 * HOUR) (17 * HOUR).
Proof.
  unfold store. eexists. eexists. split; [reflexivity|]. split; [exact (proj1 C26_case)|].
  split; [vm_compute; discriminate|]. split; [vm_compute; reflexivity|]. vm_compute. discriminate.
Qed.

(** * C52 *)
(** a date or datetime in the range Python has *)
Definition real_date (v : dval) : Prop := match v with VOther => False | _ => 1 <= day_of_val v <= MAXORD end.

Lemma ical_date_iff v : real_date v -> ((exists x, ical_date v = Ok x) <-> 1900 <= year_of (day_of_val v)).
Proof.
  assert (S : forall o, (exists x, strftime_date o = Ok x) <-> 1900 <= year_of o).
  { intros o. unfold strftime_date. rewrite ord2ymd_eta. destruct (Z.ltb_spec (year_of o) 1900) as [L|L].
    - split; [intros (x & X); discriminate|lia].
    - split; [auto|]. intros _. eexists. reflexivity. }
  destruct v as [o|t|]; cbn [real_date ical_date day_of_val]; [intros _; apply S|intros _; apply S|intros []].
Qed.

Lemma ical_datetime_iff v : real_date v -> ((exists x, ical_datetime v = Ok x) <-> 1900 <= year_of (day_of_val v)).
Proof.
  intros H. rewrite <- (ical_date_iff v H). unfold ical_datetime. split.
  - intros (x & X). destruct (ical_date v) as [d| |]; [eauto|discriminate..].
  - intros (x & ->). cbn. eauto.
Qed.

Lemma rmap_dates_iff l : Forall real_date l -> ((exists xs, rmap ical_date l = Ok xs) <-> Forall (fun v => 1900 <= year_of (day_of_val v)) l).
Proof.
  induction 1 as [|v l H _ IH]; [split; [constructor|eexists; reflexivity]|]. cbn [rmap]. split.
  - intros (xs & X). destruct (ical_date v) as [d| |] eqn:D; try discriminate. cbn [rbind] in X. destruct (rmap ical_date l) as [ds| |]; try discriminate.
    constructor; [apply (ical_date_iff v H); eauto|apply IH; eauto].
  - intros X. inversion X as [|? ? X1 X2]. subst. apply (ical_date_iff v H) in X1 as (d & ->). apply IH in X2 as (ds & ->). cbn. eauto.
Qed.

(** The lines can be made exactly if the rule has a frequency (so not the basic
    rule, nor the one that never repeats) and until and exceptions are not before
    1900. *)
Theorem C52_works_iff r dtstart : validate r = Ok tt ->
  (forall u, r_until r = Some u -> real_date u) -> Forall real_date (r_exceptions r) ->
  ((exists lines, ical_representation r dtstart = Ok lines)
   <-> r_kind r <> KBasic /\ r_kind r <> KNo /\ (forall u, r_until r = Some u -> 1900 <= year_of (day_of_val u))
       /\ Forall (fun v => 1900 <= year_of (day_of_val v)) (r_exceptions r)).
Proof.
  intros V HU HX. rewrite <- (rmap_dates_iff _ HX).
  assert (K : ical_freq (r_kind r) <> None <-> r_kind r <> KBasic /\ r_kind r <> KNo).
  { destruct (r_kind r); cbn; intuition congruence. }
  assert (CU : r_count r = None \/ r_until r = None).
  { destruct (validate_inv r V) as (_ & CU & _). destruct (r_count r), (r_until r); auto. }
  destruct (extra_part r dtstart V) as (o & E2 & _). unfold ical_representation.
  destruct (ical_freq (r_kind r)) as [freq|]; [|split; [intros (l & L); discriminate|intros (A & B & _); destruct K as [_ K]; destruct (K (conj A B)); reflexivity]].
  destruct K as [K _]. destruct K as [A B]; [discriminate|]. rewrite E2.
  set (args := match r_count r with Some _ => _ | None => _ end).
  assert (AR : (exists a, args = Ok a) <-> forall u, r_until r = Some u -> 1900 <= year_of (day_of_val u)).
  { unfold args. destruct (r_until r) as [u|] eqn:U.
    - destruct CU as [->|]; [|discriminate]. split.
      + intros (a & X) w W. assert (w = u) by congruence. subst w. apply (ical_datetime_iff u (HU u eq_refl)). destruct (ical_datetime u); [eauto|discriminate..].
      + intros X. specialize (X u eq_refl). apply (ical_datetime_iff u (HU u eq_refl)) in X as (t & ->). cbn. eauto.
    - split; [discriminate|]. intros _. destruct (r_count r) as [c|]; [destruct (c =? 0)|]; eauto. }
  split.
  - intros (lines & L). destruct args as [a| |]; try discriminate. cbn [rbind] in L. split; [exact A|]. split; [exact B|]. split; [apply AR; eauto|].
    destruct (r_exceptions r) as [|x l]; [eexists; reflexivity|]. destruct (rmap ical_date (x :: l)) as [ds| |]; [eauto|discriminate..].
  - intros (_ & _ & C & (ds & D)). apply AR in C as (a & ->). cbn [rbind]. destruct (r_exceptions r) as [|x l]; [eauto|]. rewrite D. cbn [rbind]. eauto.
Qed.
Print Assumptions C52_works_iff.

(** [r], or if it has a count of zero, [r] without a count *)
Definition as_printed (r : rule) : rule :=
  match r_count r with Some 0 => mkRule (r_kind r) (r_interval r) None (r_until r) (r_exceptions r) (r_weekdays r) (r_monthly r) | _ => r end.

(** ... and then reading them back gives the rule, except for a count of zero. *)
Theorem C52_text_exact r dtstart lines : validate r = Ok tt ->
  (forall u, r_until r = Some u -> real_date u) -> Forall real_date (r_exceptions r) ->
  ical_representation r dtstart = Ok lines ->
  exists p, read_lines lines = Some p /\ reads_as (as_printed r) dtstart p.
Proof.
  intros V HU HX L. destruct (proj1 (C52_works_iff r dtstart V HU HX)) as (A & B & C & D); [eauto|].
  assert (PU : forall u, r_until r = Some u -> printable u).
  { intros u U. specialize (HU u U). specialize (C u U). destruct u; cbn in *; auto. }
  assert (PX : Forall printable (r_exceptions r)).
  { rewrite Forall_forall in *. intros v Hv. specialize (HX v Hv). specialize (D v Hv). destruct v; cbn in *; auto. }
  assert (P : validate (as_printed r) = Ok tt /\ ical_representation (as_printed r) dtstart = Ok lines /\ r_count (as_printed r) <> Some 0
     /\ r_kind (as_printed r) = r_kind r /\ r_until (as_printed r) = r_until r /\ r_exceptions (as_printed r) = r_exceptions r).
  { unfold as_printed. destruct (r_count r) as [[|c|c]|] eqn:CO; try (repeat split; congruence || assumption).
    assert (U : r_until r = None).
    { destruct (validate_inv r V) as (_ & CU & _). rewrite CO in CU. destruct (r_until r); [|reflexivity]. destruct CU; discriminate. }
    split; [|split; [|split; [discriminate|auto]]].
    - revert V. unfold validate, basic_validate. cbn. rewrite CO, U. auto.
    - rewrite <- L. unfold ical_representation, ical_args. cbn. rewrite CO, U. reflexivity. }
  destruct P as (P1 & P2 & P3 & P4 & P5 & P6). rewrite <- P4 in A, B. rewrite <- P5 in PU. rewrite <- P6 in PX.
  destruct (C52_text_partial (as_printed r) dtstart P1 A B P3 PU PX) as (lines' & p & X & Y & Z).
  exists p. split; [congruence|exact Z].
Qed.
Print Assumptions C52_text_exact.

(** Weekdays no constructor lets in, say assigned later: those of -7 .. -1 are
    written as if counted from the end of the week, all others raise. *)
Definition with_weekdays (r : rule) (l : list Z) : rule :=
  mkRule (r_kind r) (r_interval r) (r_count r) (r_until r) (r_exceptions r) l (r_monthly r).

Lemma ical_weekday_mod w : -7 <= w <= 6 -> ical_weekday w = ical_weekday (w mod 7).
Proof.
  intros H. assert (C : w = -7 \/ w = -6 \/ w = -5 \/ w = -4 \/ w = -3 \/ w = -2 \/ w = -1 \/ 0 <= w < 7) by lia.
  repeat (destruct C as [->|C]; [reflexivity|]). now rewrite Z.mod_small.
Qed.

Lemma ical_weekday_out w : w < -7 \/ 6 < w -> ical_weekday w = Raise IndexError.
Proof.
  intros H. unfold ical_weekday.
  destruct (Z.ltb_spec w 0); match goal with |- (if ?b then _ else _) = _ => destruct b eqn:E end; try reflexivity;
    apply andb_true_iff in E; destruct E as [E1 E2]; apply Z.leb_le in E1; apply Z.ltb_lt in E2; lia.
Qed.

Theorem C52_odd_weekdays r dtstart l : r_kind r = KWeekly ->
  (Forall (fun w => -7 <= w <= 6) l ->
     ical_representation (with_weekdays r l) dtstart = ical_representation (with_weekdays r (map (fun w => w mod 7) l)) dtstart)
  /\ ((exists w, In w l /\ (w < -7 \/ 6 < w)) -> forall lines, ical_representation (with_weekdays r l) dtstart <> Ok lines).
Proof.
  intros K. split.
  - intros F. assert (E : rmap ical_weekday l = rmap ical_weekday (map (fun w => w mod 7) l)).
    { induction F as [|w l Hw F IH]; [reflexivity|]. cbn [map rmap]. now rewrite <- (ical_weekday_mod w Hw), IH. }
    unfold ical_representation, ical_args, with_weekdays. cbn [r_kind r_weekdays r_until r_count r_exceptions r_interval r_monthly].
    rewrite K. destruct l as [|w l]; [reflexivity|]. rewrite E. reflexivity.
  - intros (w & Hw & O) lines. assert (E : forall ns, rmap ical_weekday l <> Ok ns).
    { induction l as [|x l IH]; [destruct Hw|]. cbn [rmap]. intros ns. destruct Hw as [->|Hw].
      - rewrite (ical_weekday_out w O). discriminate.
      - destruct (ical_weekday x); try discriminate. cbn [rbind]. specialize (IH Hw).
        destruct (rmap ical_weekday l) as [ns'| |]; try discriminate. exfalso. now apply (IH ns'). }
    unfold ical_representation, ical_args, with_weekdays. cbn [r_kind r_weekdays r_until r_count r_exceptions r_interval r_monthly].
    rewrite K. cbn [ical_freq]. intros H.
    match type of H with rbind ?a _ = _ => destruct a; try discriminate end. cbn [rbind] in H.
    destruct l as [|x l]; [destruct Hw|]. destruct (rmap ical_weekday (x :: l)) as [ns'| |]; try discriminate. now apply (E ns').
Qed.
Print Assumptions C52_odd_weekdays.

Example C52_odd_case : let r := mkRule KWeekly 1 None None [] [-1; 2] "monthday"%string in
  validate r = Raise ValueError
  /\ ical_representation r (732500 * DAY) = Ok ["RRULE:FREQ=WEEKLY;BYDAY=SU,WE;INTERVAL=1"%string].
Proof. split; vm_compute; reflexivity. Qed.

Example C52_exact_case : exists lines, let r := mkRule KDaily 2 (Some 0) None [VDate 732500] [] "monthday"%string in
  ical_representation r 0 = Ok lines /\ validate r = Ok tt /\ lines = ["RRULE:FREQ=DAILY;INTERVAL=2"; "EXDATE;VALUE=DATE:20060708"]%string.
Proof. eexists. vm_compute. auto. Qed.

(** * C54 *)
(** An RRULE is accepted exactly if it is [readable] (PropICal.v), and the rule is
    valid exactly if the interval is positive and it does not have both COUNT and
    UNTIL. *)
Theorem C54_imports_iff rr : (exists r, import_rule rr = Ok r) <-> readable rr.
Proof.
  split; [|apply C54_readable_imports]. intros (r & E). unfold import_rule in E.
  destruct (base_rule rr) as [b| |] eqn:B; try discriminate. cbn [rbind] in E.
  assert (H : forall A (o : option (list A)) x, opt_head o = Ok x -> o <> Some []) by (intros A o x X ->; discriminate).
  destruct (opt_head (rr_interval rr)) as [i| |] eqn:I; try discriminate. cbn [rbind] in E.
  destruct (opt_head (rr_count rr)) as [c| |] eqn:C; try discriminate. cbn [rbind] in E.
  destruct (opt_head (rr_until rr)) as [u| |] eqn:U; try discriminate.
  split; [|split; [eapply H; exact I|split; [eapply H; exact C|eapply H; exact U]]]. clear - B. unfold base_rule in B.
  destruct (rr_freq rr) as [[|f l]|]; try discriminate. cbn [head_of rbind] in B. exists f, l. split; [reflexivity|].
  destruct (String.eqb_spec f "DAILY") as [->|N1]; [split; [cbn; auto|split; discriminate]|].
  destruct (String.eqb_spec f "YEARLY") as [->|N2]; [split; [cbn; auto|split; discriminate]|].
  destruct (String.eqb_spec f "WEEKLY") as [->|N3].
  - split; [cbn; auto|]. split; [|discriminate]. intros _ d Hd. destruct (rr_byday rr) as [ds|]; [|destruct Hd].
    destruct (rmap weekday_index ds) as [ws| |] eqn:W; try discriminate. apply rmap_forall2 in W. clear - W Hd.
    induction W as [|x w ds ws X _ IH]; [destruct Hd|]. destruct Hd as [<-|Hd]; [|auto]. destruct (weekday_index_name x w X) as [_ N].
    eapply nth_error_In. exact N.
  - destruct (String.eqb_spec f "MONTHLY") as [->|N4]; [|discriminate]. split; [cbn; auto|]. split; [discriminate|].
    intros _ ds D. rewrite D in B. destruct ds as [|d ds]; [discriminate|]. exists d, ds. split; [reflexivity|]. intros ->. discriminate.
Qed.
Print Assumptions C54_imports_iff.

Theorem C54_valid_iff rr r : import_rule rr = Ok r ->
  (validate r = Ok tt <-> (forall i l, rr_interval rr = Some (i :: l) -> 1 <= i) /\ (rr_count rr = None \/ rr_until rr = None)).
Proof.
  intros H. split; [|intros [A B]; now apply (C54_valid_partial rr r)].
  intros V. destruct (import_rule_says rr r H) as (_ & I & C & U & _). destruct (validate_inv r V) as (HI & CU & _).
  unfold first_or in I, C, U. split.
  - intros i l E. rewrite E in I. destruct I as (y & l' & Y & I). assert (r_interval r = i) by congruence. lia.
  - destruct (rr_count rr) as [lc|]; [|now left]. destruct (rr_until rr) as [lu|]; [|now right]. exfalso.
    destruct C as (y & ? & _ & C). destruct U as (z & ? & _ & U). destruct CU as [X|X]; rewrite X in *; discriminate.
Qed.
Print Assumptions C54_valid_iff.

(** and what is raised for the others *)
Definition refused (rr : rrule) (x : exn) : Prop :=
  let nothing {A} (o : option (list A)) := o = Some [] in
  match rr_freq rr with
  | None => x = KeyError
  | Some [] => x = IndexError
  | Some (f :: _) =>
      if in_dec string_dec f ["DAILY"; "WEEKLY"; "MONTHLY"; "YEARLY"]%string then
        (f = "WEEKLY"%string /\ x = ValueError /\ exists ds d, rr_byday rr = Some ds /\ In d ds /\ ~ In d day_names)
        \/ (x = IndexError
            /\ ((f = "MONTHLY"%string /\ (nothing (rr_byday rr) \/ exists ds, rr_byday rr = Some (""%string :: ds)))
                \/ (~ (f = "WEEKLY"%string /\ exists ds d, rr_byday rr = Some ds /\ In d ds /\ ~ In d day_names)
                    /\ (nothing (rr_interval rr) \/ nothing (rr_count rr) \/ nothing (rr_until rr)))))
      else
        (x = IndexError
         /\ (nothing (rr_interval rr) \/ (rr_interval rr = None /\ nothing (rr_count rr))
             \/ (rr_interval rr = None /\ rr_count rr = None /\ nothing (rr_until rr))))
        \/ (x = UnboundLocalError
            /\ ~ (nothing (rr_interval rr) \/ (rr_interval rr = None /\ nothing (rr_count rr))
                  \/ (rr_interval rr = None /\ rr_count rr = None /\ nothing (rr_until rr))))
  end.

Lemma weekday_index_or d : (In d day_names /\ exists w, weekday_index d = Ok w /\ 0 <= w <= 6) \/ (~ In d day_names /\ weekday_index d = Raise ValueError).
Proof.
  destruct (in_dec string_dec d day_names) as [H|H].
  - left. split; [exact H|]. repeat (destruct H as [<-|H]; [eexists; split; [reflexivity|lia]|]). destruct H.
  - right. split; [exact H|]. unfold weekday_index.
    repeat match goal with |- context [String.eqb d ?s] => destruct (String.eqb_spec d s) as [E|_]; [exfalso; apply H; rewrite E; cbn; auto 10|] end.
    reflexivity.
Qed.

Lemma weekday_indexes ds : ((forall d, In d ds -> In d day_names) /\ exists ws, rmap weekday_index ds = Ok ws /\ Forall (fun w => 0 <= w <= 6) ws)
  \/ ((exists d, In d ds /\ ~ In d day_names) /\ rmap weekday_index ds = Raise ValueError).
Proof.
  induction ds as [|d ds IH]; [left; split; [intros ? []|exists []; split; [reflexivity|constructor]]|].
  cbn [rmap]. destruct (weekday_index_or d) as [(H & w & -> & B)|(H & ->)]; cbn [rbind].
  - destruct IH as [(A & ws & -> & F)|((x & X & N) & ->)]; cbn [rbind].
    + left. split; [intros y [<-|Y]; auto|]. exists (w :: ws). split; [reflexivity|now constructor].
    + right. split; [exists x; split; [now right|exact N]|reflexivity].
  - right. split; [exists d; split; [now left|exact H]|reflexivity].
Qed.

Lemma mk_weekly ws : Forall (fun w => 0 <= w <= 6) ws ->
  mk_rule KWeekly 1 None None [] ws "monthday"%string = Ok (mkRule KWeekly 1 None None [] ws "monthday"%string).
Proof.
  intros R. unfold mk_rule.
  assert (V : validate (mkRule KWeekly 1 None None [] ws "monthday") = Ok tt).
  { unfold validate, basic_validate. cbn. replace (forallb (fun d => (0 <=? d) && (d <=? 6)) ws) with true; [reflexivity|].
    symmetry. apply forallb_forall. intros x Hx. rewrite Forall_forall in R. specialize (R x Hx). lia. }
  rewrite V. reflexivity.
Qed.

Lemma heads_raise rr b x : base_rule rr = Ok b ->
  (import_rule rr = Raise x <-> x = IndexError /\ (rr_interval rr = Some [] \/ rr_count rr = Some [] \/ rr_until rr = Some [])).
Proof.
  intros B. unfold import_rule. rewrite B. cbn [rbind]. unfold opt_head.
  destruct (rr_interval rr) as [[|i li]|], (rr_count rr) as [[|c lc]|], (rr_until rr) as [[|u lu]|]; cbn [head_of rbind];
    (split; [intros H; first [discriminate|injection H as <-; split; [reflexivity|auto]]|intros [-> [H|[H|H]]]; try discriminate; reflexivity]).
Qed.

Lemma base_raise rr y x : base_rule rr = Raise y -> (import_rule rr = Raise x <-> x = y).
Proof. intros B. unfold import_rule. rewrite B. cbn [rbind]. split; [now injection 1|now intros ->]. Qed.

Theorem C54_raises rr x : import_rule rr = Raise x <-> refused rr x.
Proof.
  unfold refused. destruct (rr_freq rr) as [[|f fl]|] eqn:F.
  - apply base_raise. unfold base_rule. now rewrite F.
  - destruct (in_dec string_dec f _) as [I|I].
    + cbn in I. destruct I as [<-|[<-|[<-|[<-|[]]]]].
      * rewrite (heads_raise rr _ x) by (unfold base_rule; rewrite F; reflexivity).
        split; [intros [-> H]; right; split; [reflexivity|right; split; [intros [E _]; discriminate|exact H]]|].
        intros [(E & _)|(-> & [(E & _)|(_ & H)])]; try discriminate. now split.
      * destruct (rr_byday rr) as [ds|] eqn:D.
        -- destruct (weekday_indexes ds) as [(A & ws & W & V)|((d & Hd & N) & W)].
           ++ rewrite (heads_raise rr (mkRule KWeekly 1 None None [] ws "monthday"%string) x).
              2: { unfold base_rule. rewrite F, D. cbn [head_of rbind String.eqb Ascii.eqb Bool.eqb]. rewrite W. cbn [rbind].
                   apply mk_weekly. exact V. }
              split; [intros [-> H]; right; split; [reflexivity|right; split; [|exact H]]|].
              { intros (_ & ds' & d & E & Hd & N). injection E as <-. auto. }
              intros [(_ & _ & ds' & d & E & Hd & N)|(-> & [(E & _)|(_ & H)])]; try discriminate; [|now split].
              injection E as <-. destruct (N (A d Hd)).
           ++ rewrite (base_raise rr ValueError x).
              2: { unfold base_rule. rewrite F, D. cbn [head_of rbind String.eqb Ascii.eqb Bool.eqb]. rewrite W. reflexivity. }
              split; [intros ->; left; eauto 10|].
              intros [(_ & -> & _)|(_ & [(E & _)|(H & _)])]; [reflexivity|discriminate|]. destruct H. eauto 10.
        -- rewrite (heads_raise rr _ x) by (unfold base_rule; rewrite F, D; reflexivity).
           split; [intros [-> H]; right; split; [reflexivity|right; split; [intros (_ & ds & d & E & _); discriminate|exact H]]|].
           intros [(_ & _ & ds & d & E & _)|(-> & [(E & _)|(_ & H)])]; try discriminate. now split.
      * destruct (rr_byday rr) as [[|[|ch d] ds]|] eqn:D.
        -- rewrite (base_raise rr IndexError x) by (unfold base_rule; rewrite F, D; reflexivity).
           split; [intros ->; right; split; [reflexivity|left; auto]|]. intros [(E & _)|(-> & _)]; [discriminate|reflexivity].
        -- rewrite (base_raise rr IndexError x) by (unfold base_rule; rewrite F, D; reflexivity).
           split; [intros ->; right; split; [reflexivity|left; split; [reflexivity|right; now exists ds]]|].
           intros [(E & _)|(-> & _)]; [discriminate|reflexivity].
        -- assert (B : exists b, base_rule rr = Ok b).
           { unfold base_rule. rewrite F, D. cbn [head_of rbind String.eqb Ascii.eqb Bool.eqb]. destruct (Ascii.eqb ch "-"); eexists; reflexivity. }
           destruct B as (b & B). rewrite (heads_raise rr b x B).
           split; [intros [-> H]; right; split; [reflexivity|right; split; [intros [E _]; discriminate|exact H]]|].
           intros [(E & _)|(-> & [(_ & [E|(ds' & E)])|(_ & H)])]; try discriminate. now split.
        -- rewrite (heads_raise rr _ x) by (unfold base_rule; rewrite F, D; reflexivity).
           split; [intros [-> H]; right; split; [reflexivity|right; split; [intros [E _]; discriminate|exact H]]|].
           intros [(E & _)|(-> & [(_ & [E|(ds' & E)])|(_ & H)])]; try discriminate. now split.
      * rewrite (heads_raise rr _ x) by (unfold base_rule; rewrite F; reflexivity).
        split; [intros [-> H]; right; split; [reflexivity|right; split; [intros [E _]; discriminate|exact H]]|].
        intros [(E & _)|(-> & [(E & _)|(_ & H)])]; try discriminate. now split.
    + rewrite (base_raise rr (no_rule rr) x).
      2: { unfold base_rule. rewrite F. cbn [head_of rbind].
           repeat match goal with |- context [String.eqb f ?s] => destruct (String.eqb_spec f s) as [E|_]; [exfalso; apply I; rewrite E; cbn; auto 10|] end.
           reflexivity. }
      unfold no_rule. destruct (rr_interval rr) as [[|i li]|], (rr_count rr) as [[|c lc]|], (rr_until rr) as [[|u lu]|];
        (split; [intros ->; first [left; split; [reflexivity|intuition congruence]|right; split; [reflexivity|intuition discriminate]]
                |intros [(-> & H)|(-> & H)]; [first [reflexivity|exfalso; intuition discriminate]|first [reflexivity|exfalso; apply H; intuition congruence]]]).
  - apply base_raise. unfold base_rule. now rewrite F.
Qed.
Print Assumptions C54_raises.

Example C54_raises_case :
  let rr f i c d := mkRR f i c None d in
  import_rule (rr None None None None) = Raise KeyError
  /\ import_rule (rr (Some []) None None None) = Raise IndexError
  /\ import_rule (rr (Some ["WEEKLY"]) (Some []) None (Some ["MO"; "1TU"]))%string = Raise ValueError
  /\ import_rule (rr (Some ["MONTHLY"]) None None (Some []))%string = Raise IndexError
  /\ import_rule (rr (Some ["DAILY"]) None (Some []) None)%string = Raise IndexError
  /\ import_rule (rr (Some ["HOURLY"]) (Some [2]) (Some []) None)%string = Raise UnboundLocalError
  /\ import_rule (rr (Some ["HOURLY"]) None (Some []) None)%string = Raise IndexError.
Proof. do 6 (split; [vm_compute; reflexivity|]). vm_compute. reflexivity. Qed.

Example C54_iff_case : exists r, let rr := mkRR (Some ["DAILY"%string]) (Some [-2]) (Some [3]) None None in
  import_rule rr = Ok r /\ validate r = Raise ValueError.
Proof. eexists. vm_compute. auto. Qed.
