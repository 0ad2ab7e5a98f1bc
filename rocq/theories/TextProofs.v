(** The lines printed for a rule can be read back. *)
From Verif Require Import Base PyDate DateFacts Recurrent CalTime QueryProofs TimeProofs Event Storage ICal System IdProofs RuleText SpecText.
From Coq Require Import DecimalString Decimal DecimalZ DecimalFacts.
From Coq Require Import ZifyBool.
Ltac Zify.zify_post_hook ::= Z.div_mod_to_equations.
Local Opaque ord2ymd year_of month_of day_of ymd2ord days_in_month is_leap.

(** ** texts without a character *)
Fixpoint lacks (c : ascii) (s : string) : bool :=
  match s with EmptyString => true | String x r => negb (Ascii.eqb x c) && lacks c r end.

Lemma lacks_app c a b : lacks c (a ++ b) = lacks c a && lacks c b.
Proof. induction a as [|x a IH]; [reflexivity|]. cbn. rewrite IH. apply andb_assoc. Qed.

Lemma split_on_one c a : lacks c a = true -> split_on c a = [a].
Proof.
  induction a as [|x a IH]; [reflexivity|]. cbn [lacks split_on]. rewrite andb_true_iff, negb_true_iff. intros [-> H].
  now rewrite IH.
Qed.

Lemma split_on_app c a b : lacks c a = true -> split_on c (a ++ String c b) = a :: split_on c b.
Proof.
  induction a as [|x a IH]; cbn [lacks append split_on].
  - rewrite Ascii.eqb_refl. reflexivity.
  - rewrite andb_true_iff, negb_true_iff. intros [-> H]. now rewrite IH.
Qed.

Lemma join_two sep x y l : join sep (x :: y :: l) = (x ++ sep ++ join sep (y :: l))%string.
Proof. reflexivity. Qed.

Lemma split_on_join c l : l <> [] -> Forall (fun a => lacks c a = true) l ->
  split_on c (join (String c "") l) = l.
Proof.
  intros N F. induction F as [|x l Hx F IH]; [congruence|]. destruct l as [|y l].
  - apply split_on_one, Hx.
  - rewrite join_two. cbn [append]. rewrite split_on_app by assumption. now rewrite IH.
Qed.

Lemma strip_app p s : strip p (p ++ s) = Some s.
Proof. induction p as [|a p IH]; [now destruct s|]. cbn. now rewrite Ascii.eqb_refl. Qed.

Lemma cut_app a b : cut (String.length a) (a ++ b) = Some (a, b).
Proof. induction a as [|c a IH]; [reflexivity|]. cbn. now rewrite IH. Qed.

(** ** numbers *)
Lemma lacks_uint c u : (forall d, In d ["0";"1";"2";"3";"4";"5";"6";"7";"8";"9"]%char -> Ascii.eqb d c = false) ->
  lacks c (NilEmpty.string_of_uint u) = true.
Proof.
  intros H. induction u; cbn [NilEmpty.string_of_uint lacks]; try reflexivity; rewrite IHu;
    rewrite H by (cbn; tauto); reflexivity.
Qed.

Lemma lacks_fmt c z : (forall d, In d ["-";"0";"1";"2";"3";"4";"5";"6";"7";"8";"9"]%char -> Ascii.eqb d c = false) ->
  lacks c (fmt_d z) = true.
Proof.
  intros H.
  assert (U : forall u, lacks c (NilZero.string_of_uint u) = true).
  { intros u. unfold NilZero.string_of_uint. destruct u; try (apply lacks_uint; intros; apply H; now right).
    change (negb (Ascii.eqb "0" c) && true = true). rewrite H by (cbn; tauto). reflexivity. }
  unfold fmt_d. destruct (Z.to_int z) as [u|u]; cbn [NilZero.string_of_int]; [apply U|].
  cbn [lacks]. rewrite U, H by (now left). reflexivity.
Qed.

Lemma to_int_nonnil z : Z.to_int z <> Pos Nil /\ Z.to_int z <> Neg Nil.
Proof.
  assert (P : forall p, Pos.to_uint p <> Nil).
  { intros p E. pose proof (DecimalPos.Unsigned.of_to p) as H. rewrite E in H. discriminate H. }
  destruct z as [|p|p]; cbn [Z.to_int]; split; try discriminate; intros E; inversion E; eapply P; eassumption.
Qed.

Lemma read_fmt z : read_int (fmt_d z) = Some z.
Proof.
  unfold read_int, fmt_d. destruct (to_int_nonnil z) as [A B]. rewrite (NilZero.isi _ A B).
  now rewrite DecimalZ.of_to.
Qed.

Lemma digit_ok d : 0 <= d < 10 -> digit (ascii_of_nat (48 + Z.to_nat d)) = Some d.
Proof.
  intros H. unfold digit. rewrite nat_ascii_embedding by lia.
  destruct (_ && _) eqn:E; [f_equal; lia|lia].
Qed.

Lemma read_digits_snoc a c : forall acc, read_digits acc (a ++ String c "") =
  obind (read_digits acc a) (fun v => obind (digit c) (fun d => Some (10 * v + d))).
Proof.
  induction a as [|x a IH]; intros acc; cbn [append read_digits]; [reflexivity|].
  destruct (digit x); cbn [obind]; [apply IH|reflexivity].
Qed.

Lemma read_pad w : forall n, 0 <= n < 10 ^ Z.of_nat w -> read_digits 0 (pad w n) = Some n.
Proof.
  induction w as [|w IH]; intros n H.
  - cbn in *. f_equal. lia.
  - cbn [pad]. rewrite read_digits_snoc.
    assert (P : 10 ^ Z.of_nat (S w) = 10 * 10 ^ Z.of_nat w).
    { rewrite Nat2Z.inj_succ, Z.pow_succ_r by lia. reflexivity. }
    rewrite P in H. set (q := 10 ^ Z.of_nat w) in *. rewrite IH by lia. cbn [obind].
    rewrite digit_ok by lia. cbn [obind]. f_equal. lia.
Qed.

Lemma read_num_pad w n s : 0 <= n < 10 ^ Z.of_nat w -> read_num w (pad w n ++ s) = Some (n, s).
Proof.
  intros H. unfold read_num. rewrite <- (pad_length w n) at 1. rewrite cut_app. cbn [obind].
  rewrite read_pad by assumption. reflexivity.
Qed.

Lemma lacks_pad c w : (forall d, 0 <= d < 10 -> Ascii.eqb (ascii_of_nat (48 + Z.to_nat d)) c = false) ->
  forall n, lacks c (pad w n) = true.
Proof.
  intros H. induction w as [|w IH]; intros n; [reflexivity|]. cbn [pad]. rewrite lacks_app, IH. cbn [lacks].
  rewrite H by lia. reflexivity.
Qed.

Lemma digit_char c : In c [";"; ","]%char -> forall d, 0 <= d < 10 -> Ascii.eqb (ascii_of_nat (48 + Z.to_nat d)) c = false.
Proof.
  intros [<-|[<-|[]]] d H; apply Ascii.eqb_neq; intros E; apply (f_equal nat_of_ascii) in E;
    rewrite nat_ascii_embedding in E by lia; cbn in E; lia.
Qed.

(** ** dates *)
(** the day a date or datetime falls on, and its second of the day *)
Definition day_of_val (v : dval) : Z := match v with VDate o => o | VDatetime t => dt_date t | VOther => 0 end.
Definition sec_of_val (v : dval) : Z := match v with VDatetime t => dt_time t / 1000000 | _ => 0 end.

(** a date of a year that strftime accepts *)
Definition printable (v : dval) : Prop :=
  match v with VOther => False | _ => 1 <= day_of_val v <= MAXORD /\ 1900 <= year_of (day_of_val v) end.

Lemma date_ranges o : 1 <= o <= MAXORD ->
  0 <= year_of o < 10 ^ Z.of_nat 4 /\ 0 <= month_of o < 10 ^ Z.of_nat 2 /\ 0 <= day_of o < 10 ^ Z.of_nat 2.
Proof.
  intros Hx. pose proof (year_ge1 o). pose proof (proj2 (year_le_iff o ltac:(lia)) ltac:(lia)).
  pose proof (month_range o). pose proof (day_range o). pose proof (dim_range (year_of o) (month_of o)).
  change (10 ^ Z.of_nat 4) with 10000. change (10 ^ Z.of_nat 2) with 100. unfold MAXYEAR in *. lia.
Qed.

Lemma strftime_read o : 1 <= o <= MAXORD -> 1900 <= year_of o -> exists x, strftime_date o = Ok x
  /\ (forall s, read_date_rest (x ++ s) = Some (o, s))
  /\ forall c, In c [";"; ","]%char -> lacks c x = true.
Proof.
  intros H Y. unfold strftime_date. rewrite ord2ymd_eta. destruct (year_of o <? 1900) eqn:E; [lia|].
  eexists. split; [reflexivity|]. destruct (date_ranges o H) as (R1 & R2 & R3). split.
  - intros s. unfold read_date_rest.
    assert (A : forall a b c, ((a ++ b) ++ c = a ++ (b ++ c))%string).
    { intros a b c. induction a as [|x a IH]; [reflexivity|]. cbn. now rewrite IH. }
    rewrite !A. rewrite read_num_pad by assumption. cbn [obind].
    rewrite read_num_pad by assumption. cbn [obind]. rewrite read_num_pad by assumption. cbn [obind].
    now rewrite ord_roundtrip by lia.
  - intros c Hc. rewrite !lacks_app, !lacks_pad by now apply digit_char. reflexivity.
Qed.

Lemma ical_date_read v : printable v -> exists x, ical_date v = Ok x
  /\ (forall s, read_date_rest (x ++ s) = Some (day_of_val v, s))
  /\ forall c, In c [";"; ","]%char -> lacks c x = true.
Proof. destruct v; cbn [printable day_of_val ical_date]; intros H; [now apply strftime_read|now apply strftime_read|contradiction]. Qed.

Lemma app_nil_s a : (a ++ "" = a)%string.
Proof. induction a as [|x a IH]; [reflexivity|]. cbn. now rewrite IH. Qed.

Lemma ical_date_read1 v : printable v -> exists x, ical_date v = Ok x /\ read_date x = Some (day_of_val v)
  /\ lacks "," x = true.
Proof.
  intros H. destruct (ical_date_read v H) as (x & E & R & L). exists x. split; [exact E|]. split; [|apply L; cbn; tauto].
  unfold read_date. rewrite <- (app_nil_s x). rewrite R. reflexivity.
Qed.

Lemma ical_datetime_read v : printable v -> exists x, ical_datetime v = Ok x
  /\ read_datetime x = Some (day_of_val v, sec_of_val v) /\ lacks ";" x = true.
Proof.
  intros H. destruct (ical_date_read v H) as (x & E & R & L). unfold ical_datetime. rewrite E. cbn [rbind].
  eexists. split; [reflexivity|].
  assert (S : match v with VDatetime t => dt_time t / SECOND | _ => 0 end = sec_of_val v) by now destruct v.
  rewrite S. assert (B : 0 <= sec_of_val v < 86400).
  { destruct v; cbn; try lia. pose proof (dt_time_range t). unfold DAY in *. lia. }
  set (k := sec_of_val v) in *. split.
  - unfold read_datetime. rewrite R. cbn [obind]. cbn [append strip]. rewrite Ascii.eqb_refl. cbn [obind strip].
    rewrite read_num_pad by (change (10 ^ Z.of_nat 2) with 100; lia). cbn [obind].
    rewrite read_num_pad by (change (10 ^ Z.of_nat 2) with 100; lia). cbn [obind].
    rewrite <- (app_nil_s (pad 2 (k mod 60))).
    rewrite read_num_pad by (change (10 ^ Z.of_nat 2) with 100; lia). cbn [obind]. do 2 f_equal. lia.
  - rewrite !lacks_app, !lacks_pad by (apply digit_char; cbn; tauto). rewrite L by (cbn; tauto). reflexivity.
Qed.

(** ** weekdays *)
Lemma weekday_name w : 0 <= w <= 6 -> exists x, ical_weekday w = Ok x /\ read_weekday x = Some w
  /\ String.length x = 2%nat /\ (forall c, In c [";"; ","]%char -> lacks c x = true).
Proof.
  intros H. assert (C : w = 0 \/ w = 1 \/ w = 2 \/ w = 3 \/ w = 4 \/ w = 5 \/ w = 6) by lia.
  repeat destruct C as [->|C]; [| | | | | |subst w]; (eexists; split; [reflexivity|]; split; [reflexivity|]; split; [reflexivity|];
    intros c [<-|[<-|[]]]; reflexivity).
Qed.

Lemma read_byday_plain x w : String.length x = 2%nat -> read_weekday x = Some w -> read_byday x = Some (None, w).
Proof.
  intros L R. unfold read_byday. rewrite L. cbn [Nat.sub cut obind]. now rewrite R.
Qed.

Lemma fmt_nonempty z : fmt_d z <> ""%string.
Proof. intros E. pose proof (read_fmt z) as H. rewrite E in H. discriminate H. Qed.

Lemma read_byday_num n x w : String.length x = 2%nat -> read_weekday x = Some w ->
  read_byday (fmt_d n ++ x) = Some (Some n, w).
Proof.
  intros L R. unfold read_byday. rewrite app_length_s, L, Nat.add_sub, cut_app. cbn [obind]. rewrite R. cbn [obind].
  pose proof (fmt_nonempty n). destruct (fmt_d n) eqn:E; [congruence|]. rewrite <- E, read_fmt. reflexivity.
Qed.

Lemma rmap_weekdays l : forallb (fun d => (0 <=? d) && (d <=? 6)) l = true ->
  exists ns, rmap ical_weekday l = Ok ns /\ omap read_byday ns = Some (map (fun w => (None, w)) l)
   /\ Forall (fun a => lacks "," a = true) ns /\ Forall (fun a => lacks ";" a = true) ns /\ List.length ns = List.length l.
Proof.
  induction l as [|w l IH]; cbn [forallb rmap]; [intros _; exists []; repeat split; constructor|].
  rewrite !andb_true_iff. intros [[A B] H]. destruct (IH H) as (ns & E & R & L1 & L2 & N).
  destruct (weekday_name w ltac:(lia)) as (x & E1 & R1 & Lx & C1). rewrite E1. cbn [rbind]. rewrite E. cbn [rbind].
  exists (x :: ns). split; [reflexivity|]. split; [|split; [|split]].
  - cbn [omap map]. rewrite (read_byday_plain x w) by assumption. cbn [obind]. now rewrite R.
  - constructor; [apply C1; cbn; tauto|assumption].
  - constructor; [apply C1; cbn; tauto|assumption].
  - cbn. now rewrite N.
Qed.

Lemma lacks_join c sep l : lacks c sep = true -> Forall (fun a => lacks c a = true) l -> lacks c (join sep l) = true.
Proof.
  intros S F. induction F as [|x l Hx F IH]; [reflexivity|]. destruct l as [|y l]; [exact Hx|].
  rewrite join_two, !lacks_app, Hx, S, IH. reflexivity.
Qed.

(** ** exceptions *)
Lemma rmap_dates l : Forall printable l -> exists xs, rmap ical_date l = Ok xs
  /\ omap read_date xs = Some (map day_of_val l) /\ Forall (fun a => lacks "," a = true) xs /\ List.length xs = List.length l.
Proof.
  induction 1 as [|v l H _ (xs & E & R & L & N)]; [exists []; repeat split; constructor|].
  destruct (ical_date_read1 v H) as (x & E1 & R1 & L1). exists (x :: xs). cbn [rmap map omap]. rewrite E1. cbn [rbind]. rewrite E.
  split; [reflexivity|]. split; [rewrite R1; cbn [obind]; now rewrite R|]. split; [now constructor|]. cbn. now rewrite N.
Qed.

(** ** the whole text *)
Definition part_ok (p : string) : Prop := lacks ";" p = true.

Lemma app_assoc3 a b c : ((a ++ b) ++ c = a ++ (b ++ c))%string.
Proof. induction a as [|x a IH]; [reflexivity|]. cbn. now rewrite IH. Qed.

(** the parts printed for count and until *)
Lemma count_part r : validate r = Ok tt -> (forall u, r_until r = Some u -> printable u) -> r_count r <> Some 0 ->
  exists ps, (match r_count r with
      | Some c => if c =? 0 then match r_until r with
                    | Some u => let* t := ical_datetime u in Ok ("UNTIL=" ++ t ++ ";")%string
                    | None => Ok ""%string end
                  else Ok ("COUNT=" ++ fmt_d c ++ ";")%string
      | None => match r_until r with
                | Some u => let* t := ical_datetime u in Ok ("UNTIL=" ++ t ++ ";")%string
                | None => Ok ""%string end
      end) = Ok (String.concat "" (map (fun p => p ++ ";") ps))%string
   /\ ((ps = [] /\ r_count r = None /\ r_until r = None)
       \/ (exists c, ps = ["COUNT=" ++ fmt_d c]%string /\ r_count r = Some c /\ r_until r = None)
       \/ (exists u x, ps = ["UNTIL=" ++ x]%string /\ r_count r = None /\ r_until r = Some u
             /\ read_datetime x = Some (day_of_val u, sec_of_val u) /\ lacks ";" x = true)).
Proof.
  intros V U C.
  assert (B : forall c u, r_count r = Some c -> r_until r = Some u -> False).
  { intros c u E1 E2. unfold validate, basic_validate in V. rewrite E1, E2 in V. destruct (r_kind r); discriminate V. }
  destruct (r_count r) as [c|] eqn:Ec.
  - destruct (c =? 0) eqn:E0; [exfalso; apply C; f_equal; lia|]. exists ["COUNT=" ++ fmt_d c]%string. split.
    + cbn [map String.concat]. now rewrite app_assoc3.
    + right; left. exists c. repeat split. destruct (r_until r) as [u|] eqn:Eu; [exfalso; eapply B; eauto|reflexivity].
  - destruct (r_until r) as [u|] eqn:Eu.
    + destruct (ical_datetime_read u (U u eq_refl)) as (x & E & R & L). rewrite E. cbn [rbind]. exists ["UNTIL=" ++ x]%string. split.
      * cbn [map String.concat]. now rewrite app_assoc3.
      * right; right. exists u, x. auto.
    + exists []. split; [reflexivity|]. auto.
Qed.

(** the position of a date among the same weekdays of its month *)
Definition nth_in_month (n o : Z) : Prop := 7 * (n - 1) < day_of o <= 7 * n.

Lemma extra_part r dtstart : validate r = Ok tt ->
  exists o, ical_args r dtstart = Ok o
   /\ match o with
      | None => r_kind r <> KMonthly /\ (r_kind r = KWeekly -> r_weekdays r = [])
      | Some x =>
          (exists ns, x = ("BYDAY=" ++ join "," ns)%string /\ r_kind r = KWeekly /\ r_weekdays r <> []
             /\ omap read_byday ns = Some (map (fun w => (None, w)) (r_weekdays r))
             /\ ns <> [] /\ Forall (fun a => lacks "," a = true) ns /\ lacks ";" (join "," ns) = true)
          \/ (x = ("BYMONTHDAY=" ++ fmt_d (day_of (dt_date dtstart)))%string /\ r_kind r = KMonthly /\ r_monthly r = "monthday"%string)
          \/ (exists k n, x = ("BYDAY=" ++ n)%string /\ r_kind r = KMonthly
               /\ (r_monthly r = "weekday"%string /\ nth_in_month k (dt_date dtstart) \/ r_monthly r = "lastweekday"%string /\ k = -1)
               /\ omap read_byday (split_on "," n) = Some [(Some k, weekday (dt_date dtstart))]
               /\ lacks ";" n = true)
      end.
Proof.
  intros V. unfold ical_args. destruct (r_kind r) eqn:K;
    try (exists None; split; [reflexivity|]; split; [discriminate|discriminate]).
  - assert (F : forallb (fun d => (0 <=? d) && (d <=? 6)) (r_weekdays r) = true).
    { unfold validate in V. rewrite K in V. destruct (basic_validate r); try discriminate V. cbn in V.
      destruct (forallb _ _); [reflexivity|discriminate V]. }
    destruct (r_weekdays r) as [|w l] eqn:W; [exists None; split; [reflexivity|]; split; [discriminate|reflexivity]|].
    destruct (rmap_weekdays _ F) as (ns & E & R & L1 & L2 & N). rewrite E. cbn [rbind]. eexists. split; [reflexivity|].
    left. exists ns. split; [reflexivity|]. split; [reflexivity|]. split; [discriminate|]. split; [exact R|].
    split; [intros ->; discriminate N|]. split; [exact L1|]. now apply lacks_join.
  - assert (M : str_in (r_monthly r) ["monthday"; "weekday"; "lastweekday"]%string = true).
    { unfold validate in V. rewrite K in V. destruct (basic_validate r); try discriminate V. cbn [rbind] in V.
      destruct (str_in _ _); [reflexivity|discriminate V]. }
    pose proof (weekday_range (dt_date dtstart)) as WR. destruct (weekday_name _ WR) as (x & E & R & L & Cx).
    destruct (String.eqb_spec (r_monthly r) "monthday") as [E1|N1]; [|destruct (String.eqb_spec (r_monthly r) "weekday") as [E1|N2];
      [|destruct (String.eqb_spec (r_monthly r) "lastweekday") as [E1|N3]]].
    + eexists. split; [reflexivity|]. right; left. auto.
    + rewrite E. cbn [rbind]. eexists. split; [reflexivity|]. right; right. eexists _, _. split; [reflexivity|]. split; [reflexivity|].
      split; [left; split; [exact E1|]|].
      * instantiate (1 := (day_of (dt_date dtstart) - 1) / 7 + 1). unfold nth_in_month. lia.
      * split.
        -- rewrite split_on_one.
           ++ cbn [omap]. rewrite (read_byday_num _ x _ L R). reflexivity.
           ++ rewrite lacks_app, lacks_fmt, Cx; [reflexivity|cbn; tauto|]. intros d Hd; repeat destruct Hd as [<-|Hd]; try reflexivity; destruct Hd.
        -- rewrite lacks_app, lacks_fmt, Cx; [reflexivity|cbn; tauto|]. intros d Hd; repeat destruct Hd as [<-|Hd]; try reflexivity; destruct Hd.
    + rewrite E. cbn [rbind]. eexists. split; [reflexivity|]. right; right. exists (-1), ("-1" ++ x)%string.
      split; [reflexivity|]. split; [reflexivity|]. split; [right; auto|].
      change "-1"%string with (fmt_d (-1)). split.
      * rewrite split_on_one.
        -- cbn [omap]. rewrite (read_byday_num _ x _ L R). reflexivity.
        -- rewrite lacks_app, Cx by (cbn; tauto). reflexivity.
      * rewrite lacks_app, Cx by (cbn; tauto). reflexivity.
    + cbn in M. destruct (String.eqb_spec (r_monthly r) "monthday"), (String.eqb_spec (r_monthly r) "weekday"),
        (String.eqb_spec (r_monthly r) "lastweekday"); cbn in M; try contradiction. discriminate M.
Qed.

(** what reading the printed lines yields *)
Definition reads_as (r : rule) (dtstart : Z) (p : read_rule) : Prop :=
  Some (rd_freq p) = ical_freq (r_kind r)
  /\ rd_interval p = Some (r_interval r)
  /\ rd_count p = r_count r
  /\ rd_until p = match r_until r with Some u => Some (day_of_val u, sec_of_val u) | None => None end
  /\ (r_kind r = KWeekly -> match rd_byday p with
                            | Some l => l = map (fun w => (None, w)) (r_weekdays r)
                            | None => r_weekdays r = []
                            end)
  /\ (r_kind r = KMonthly ->
        (r_monthly r = "monthday"%string /\ rd_byday p = None /\ rd_bymonthday p = Some (day_of (dt_date dtstart)))
        \/ (exists k, rd_byday p = Some [(Some k, weekday (dt_date dtstart))] /\ rd_bymonthday p = None
             /\ (r_monthly r = "weekday"%string /\ nth_in_month k (dt_date dtstart)
                 \/ r_monthly r = "lastweekday"%string /\ k = -1)))
  /\ (r_kind r = KDaily \/ r_kind r = KYearly -> rd_byday p = None /\ rd_bymonthday p = None)
  /\ rd_exdates p = match r_exceptions r with [] => None | l => Some (map day_of_val l) end.

Definition parts_of (freq : string) (ps xs : list string) (i : Z) : list string :=
  (("FREQ=" ++ freq)%string :: ps ++ xs ++ [("INTERVAL=" ++ fmt_d i)%string]).

Lemma concat_cons a l : (String.concat "" (a :: l) = a ++ String.concat "" l)%string.
Proof. destruct l; [cbn; now rewrite app_nil_s|reflexivity]. Qed.

Lemma join_more sep a l : l <> [] -> join sep (a :: l) = (a ++ sep ++ join sep l)%string.
Proof. destruct l; [congruence|reflexivity]. Qed.

Lemma concat_semi ps : forall last, (String.concat "" (map (fun p => p ++ ";") ps) ++ last = join ";" (ps ++ [last]))%string.
Proof.
  induction ps as [|p ps IH]; intros last; [reflexivity|]. cbn [map]. rewrite concat_cons.
  change ((p :: ps) ++ [last]) with (p :: (ps ++ [last])). rewrite join_more by (destruct ps; discriminate).
  rewrite !app_assoc3, IH. reflexivity.
Qed.

Lemma lacks_semi_fmt z : lacks ";" (fmt_d z) = true.
Proof. apply lacks_fmt. intros d Hd; repeat destruct Hd as [<-|Hd]; try reflexivity; destruct Hd. Qed.

Lemma representation_reads r dtstart : validate r = Ok tt -> ical_freq (r_kind r) <> None -> r_count r <> Some 0 ->
  (forall u, r_until r = Some u -> printable u) -> Forall printable (r_exceptions r) ->
  exists lines p, ical_representation r dtstart = Ok lines /\ read_lines lines = Some p /\ reads_as r dtstart p.
Proof.
  intros V K C U X. unfold ical_representation. destruct (ical_freq (r_kind r)) as [freq|] eqn:F; [|congruence]. clear K.
  destruct (count_part r V U C) as (ps & E1 & P1). rewrite E1. cbn [rbind].
  destruct (extra_part r dtstart V) as (o & E2 & P2). rewrite E2. cbn [rbind].
  set (xs := match o with Some x => [x] | None => [] end).
  assert (LF : lacks ";" freq = true).
  { destruct (r_kind r); cbn in F; try discriminate F; injection F as <-; reflexivity. }
  assert (T : ("RRULE:FREQ=" ++ freq ++ ";" ++ (match o with Some x => String.concat "" (map (fun q => q ++ ";") ps) ++ x ++ ";" | None => String.concat "" (map (fun p => p ++ ";") ps) end) ++ "INTERVAL=" ++ fmt_d (r_interval r)
     = "RRULE:" ++ join ";" (parts_of freq ps xs (r_interval r)))%string).
  { change ("RRULE:FREQ=" ++ freq ++ ";" ++ (match o with Some x => String.concat "" (map (fun q => q ++ ";") ps) ++ x ++ ";" | None => String.concat "" (map (fun p => p ++ ";") ps) end) ++ "INTERVAL=" ++ fmt_d (r_interval r))%string
      with ("RRULE:" ++ (("FREQ=" ++ freq) ++ ";" ++ (match o with Some x => String.concat "" (map (fun q => q ++ ";") ps) ++ x ++ ";" | None => String.concat "" (map (fun p => p ++ ";") ps) end) ++ "INTERVAL=" ++ fmt_d (r_interval r)))%string.
    f_equal. unfold parts_of.
    rewrite join_more by (destruct ps, xs; discriminate). do 2 f_equal.
    destruct o as [x|]; subst xs; cbn [app].
    - rewrite !app_assoc3. rewrite concat_semi.
      assert (Q : forall l x y, join ";" (l ++ [x; y]) = join ";" (l ++ [(x ++ ";" ++ y)%string])).
      { intros l y z. induction l as [|a l IH]; [reflexivity|]. change ((a :: l) ++ [y; z]) with (a :: (l ++ [y; z])). change ((a :: l) ++ [(y ++ ";" ++ z)%string]) with (a :: (l ++ [(y ++ ";" ++ z)%string])). rewrite !join_more by (destruct l; discriminate). now rewrite IH. }
      symmetry. apply Q.
    - apply concat_semi. }
  rewrite T. clear T.
  assert (S : split_on ";" (join ";" (parts_of freq ps xs (r_interval r))) = parts_of freq ps xs (r_interval r)).
  { apply (split_on_join ";"%char); [discriminate|]. unfold parts_of. constructor; [now rewrite lacks_app, LF|].
    apply Forall_app. split; [|apply Forall_app; split].
    - destruct P1 as [(-> & _)|[(c & -> & _)|(u & x & -> & _ & _ & _ & L)]]; [constructor| |]; (constructor; [|constructor]).
      + rewrite lacks_app, lacks_semi_fmt. reflexivity.
      + rewrite lacks_app, L. reflexivity.
    - subst xs. destruct o as [x|]; [|constructor]. constructor; [|constructor].
      destruct P2 as [(ns & -> & _ & _ & _ & _ & _ & L)|[(-> & _)|(k & n & -> & _ & _ & _ & L)]]; rewrite lacks_app.
      + rewrite L. reflexivity.
      + rewrite lacks_semi_fmt. reflexivity.
      + rewrite L. reflexivity.
    - constructor; [|constructor]. rewrite lacks_app, lacks_semi_fmt. reflexivity. }
  set (line := join ";" (parts_of freq ps xs (r_interval r))) in *.
  destruct (rmap_dates _ X) as (ds & D1 & D2 & D3 & D4).
  set (rest := match r_exceptions r with [] => [] | _ => [("EXDATE;VALUE=DATE:" ++ join "," ds)%string] end).
  exists (("RRULE:" ++ line)%string :: rest).
  assert (R : (match rest with
             | [] => Some None
             | [x] => obind (strip "EXDATE;VALUE=DATE:" x) (fun s =>
                      obind (omap read_date (split_on "," s)) (fun l => Some (Some l)))
             | _ => None
             end) = Some (match r_exceptions r with [] => None | l => Some (map day_of_val l) end)).
  { subst rest. destruct (r_exceptions r) as [|v vs] eqn:EX; [reflexivity|]. rewrite strip_app. cbn [obind].
    rewrite (split_on_join ","%char); [rewrite D2; reflexivity| |assumption]. intros ->. discriminate D4. }
  assert (OKL : match r_exceptions r with
      | [] => Ok [("RRULE:" ++ line)%string]
      | _ :: _ => let* dates := rmap ical_date (r_exceptions r) in
                  Ok [("RRULE:" ++ line)%string; ("EXDATE;VALUE=DATE:" ++ join "," dates)%string]
      end = Ok (("RRULE:" ++ line)%string :: rest)).
  { subst rest. destruct (r_exceptions r); [reflexivity|]. rewrite D1. reflexivity. }
  assert (RD : read_lines (("RRULE:" ++ line)%string :: rest) =
     let parts := parts_of freq ps xs (r_interval r) in
     obind (optional read_datetime (part "UNTIL" parts)) (fun u =>
     obind (optional read_int (part "COUNT" parts)) (fun c =>
     obind (optional (fun s => omap read_byday (split_on "," s)) (part "BYDAY" parts)) (fun b =>
     obind (optional read_int (part "BYMONTHDAY" parts)) (fun m =>
       Some (mkRead freq (Some (r_interval r)) c u b m
         (match r_exceptions r with [] => None | l => Some (map day_of_val l) end))))))).
  { unfold read_lines. rewrite strip_app. cbn [obind]. rewrite S, R.
    assert (F1 : part "FREQ" (parts_of freq ps xs (r_interval r)) = Some freq) by reflexivity. rewrite F1. cbn [obind].
    assert (I1 : optional read_int (part "INTERVAL" (parts_of freq ps xs (r_interval r))) = Some (Some (r_interval r))).
    { assert (I0 : part "INTERVAL" (parts_of freq ps xs (r_interval r)) = Some (fmt_d (r_interval r))).
      { unfold parts_of.
        destruct P1 as [(-> & _)|[(c & -> & _)|(u & x & -> & _)]]; subst xs; (destruct o as [x'|]; [|reflexivity]);
          (destruct P2 as [(ns & -> & _)|[(-> & _)|(k & n & -> & _)]]; reflexivity). }
      rewrite I0. cbn [optional]. rewrite read_fmt. reflexivity. }
    rewrite I1. cbn [obind].
    destruct (optional read_int (part "COUNT" _)), (optional read_datetime (part "UNTIL" _)),
      (optional _ (part "BYDAY" _)), (optional read_int (part "BYMONTHDAY" _)); reflexivity. }
  cbv zeta in RD. clear R S D1 D2 D3 D4 E1 E2. unfold parts_of in RD.
  set (ex := match r_exceptions r with [] => None | l => Some (map day_of_val l) end) in *.
  assert (PS : exists c u, (forall l, optional read_int (part "COUNT" (("FREQ=" ++ freq)%string :: ps ++ l)) = match c with Some _ => Some c | None => optional read_int (part "COUNT" l) end)
     /\ (forall l, optional read_datetime (part "UNTIL" (("FREQ=" ++ freq)%string :: ps ++ l)) = match u with Some _ => Some u | None => optional read_datetime (part "UNTIL" l) end)
     /\ (forall l, part "BYDAY" (("FREQ=" ++ freq)%string :: ps ++ l) = part "BYDAY" l)
     /\ (forall l, part "BYMONTHDAY" (("FREQ=" ++ freq)%string :: ps ++ l) = part "BYMONTHDAY" l)
     /\ c = r_count r /\ u = match r_until r with Some u => Some (day_of_val u, sec_of_val u) | None => None end).
  { destruct P1 as [(-> & -> & ->)|[(c & -> & -> & ->)|(u & x & -> & -> & -> & RD1 & _)]].
    - exists None, None. repeat split; reflexivity.
    - exists (Some c), None. split; [|repeat split; reflexivity]. intros l.
      change (part "COUNT" _) with (Some (fmt_d c)). cbn [optional]. rewrite read_fmt. reflexivity.
    - exists None, (Some (day_of_val u, sec_of_val u)). split; [reflexivity|]. split; [|repeat split; reflexivity]. intros l.
      change (part "UNTIL" _) with (Some x). cbn [optional]. rewrite RD1. reflexivity. }
  destruct PS as (c & u & Q1 & Q2 & Q3 & Q4 & EC & EU). rewrite Q1, Q2, Q3, Q4 in RD. clear Q1 Q2 Q3 Q4 P1.
  assert (XS : exists b m, part "COUNT" (xs ++ [("INTERVAL=" ++ fmt_d (r_interval r))%string]) = None
     /\ part "UNTIL" (xs ++ [("INTERVAL=" ++ fmt_d (r_interval r))%string]) = None
     /\ optional (fun s => omap read_byday (split_on "," s)) (part "BYDAY" (xs ++ [("INTERVAL=" ++ fmt_d (r_interval r))%string])) = Some b
     /\ optional read_int (part "BYMONTHDAY" (xs ++ [("INTERVAL=" ++ fmt_d (r_interval r))%string])) = Some m
     /\ reads_as r dtstart (mkRead freq (Some (r_interval r)) c u b m ex)).
  { subst xs. unfold reads_as. cbn [rd_freq rd_interval rd_count rd_until rd_byday rd_bymonthday rd_exdates].
    rewrite F. destruct o as [x|].
    - destruct P2 as [(ns & -> & K & WN & RB & NE & L1 & _)|[(-> & K & M)|(k & n & -> & K & KK & RB & _)]].
      + exists (Some (map (fun w => (None, w)) (r_weekdays r))), None. split; [reflexivity|]. split; [reflexivity|]. split; [|split; [reflexivity|]].
        * change (part "BYDAY" _) with (Some (join "," ns)). cbn [optional].
          rewrite (split_on_join ","%char) by assumption. rewrite RB. reflexivity.
        * repeat split; auto; intros; try congruence; destruct H; congruence.
      + exists None, (Some (day_of (dt_date dtstart))). split; [reflexivity|]. split; [reflexivity|]. split; [reflexivity|]. split.
        * change (part "BYMONTHDAY" _) with (Some (fmt_d (day_of (dt_date dtstart)))). cbn [optional]. rewrite read_fmt. reflexivity.
        * repeat split; auto; intros; try congruence; destruct H; congruence.
      + exists (Some [(Some k, weekday (dt_date dtstart))]), None. split; [reflexivity|]. split; [reflexivity|]. split; [|split; [reflexivity|]].
        * change (part "BYDAY" _) with (Some n). cbn [optional]. rewrite RB. reflexivity.
        * repeat split; auto; intros; try congruence; try (destruct H; congruence). right. exists k. auto.
    - destruct P2 as [N1 N2]. exists None, None. repeat split; auto; intros; congruence. }
  destruct XS as (b & m & X1 & X2 & X3 & X4 & RA). rewrite X1, X2, X3, X4 in RD. cbn [optional obind] in RD.
  eexists. split; [rewrite <- OKL; destruct (r_exceptions r); reflexivity|]. split; [|exact RA].
  rewrite RD. destruct c, u; reflexivity.
Qed.
