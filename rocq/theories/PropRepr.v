(** Printed rules and vocabularies: C82, C83. *)
From Verif Require Import Base PyDate DateFacts Recurrent RecurMisc CalTime TimeProofs Event Storage ICal System
  QueryProofs RuleText SpecText TextProofs Repr.
From Coq Require Import ZifyBool DecimalString Decimal.
Ltac Zify.zify_post_hook ::= Z.div_mod_to_equations.
Local Opaque ord2ymd year_of month_of day_of ymd2ord days_in_month is_leap.

(** * Specification: a reader for Python expressions *)
(** Integers, None, strings in single quotes, tuples and calls; written from the
    Python grammar, independent of the code that prints them. *)
Inductive pyval :=
| PInt (z : Z)
| PNone
| PStr (s : string)
| PTuple (l : list pyval)
| PCall (f : string) (l : list pyval).

Fixpoint span (p : ascii -> bool) (s : string) : string * string :=
  match s with
  | EmptyString => (EmptyString, EmptyString)
  | String c r => if p c then let '(a, b) := span p r in (String c a, b) else (EmptyString, s)
  end.

Definition is_digit (c : ascii) : bool := match digit c with Some _ => true | None => false end.
Definition is_name (c : ascii) : bool :=
  let n := Z.of_nat (nat_of_ascii c) in
  ((65 <=? n) && (n <=? 90)) || ((97 <=? n) && (n <=? 122)) || (n =? 95) || (n =? 46).

(** [items] reads up to the closing parenthesis and says whether a comma follows
    the last item *)
Fixpoint expr (n : nat) (s : string) : option (pyval * string) :=
  match n, s with
  | S n, String c r =>
      if Ascii.eqb c "("%char then
        match items n r with
        | Some ([v], false, b) => Some (v, b)
        | Some (l, _, b) => Some (PTuple l, b)
        | None => None
        end
      else if Ascii.eqb c "'"%char then
        match span (fun x => negb (Ascii.eqb x "'"%char)) r with
        | (a, String _ b) => Some (PStr a, b)
        | _ => None
        end
      else if is_digit c || Ascii.eqb c "-"%char then
        let '(a, b) := span is_digit r in
        match read_int (String c a) with Some z => Some (PInt z, b) | None => None end
      else
        let '(a, b) := span is_name s in
        if String.eqb a "None" then Some (PNone, b)
        else match b with
             | String p b' =>
                 if Ascii.eqb p "("%char then match items n b' with Some (l, _, b'') => Some (PCall a l, b'') | None => None end
                 else None
             | EmptyString => None
             end
  | _, _ => None
  end
with items (n : nat) (s : string) : option (list pyval * bool * string) :=
  match n, s with
  | S n, String c r =>
      if Ascii.eqb c ")"%char then Some ([], true, r)
      else if Ascii.eqb c " "%char then items n r
      else match expr n s with
           | Some (v, String d b) =>
               if Ascii.eqb d ","%char then
                 match items n b with Some (l, t, b') => Some (v :: l, t, b') | None => None end
               else if Ascii.eqb d ")"%char then Some ([v], false, b)
               else None
           | _ => None
           end
  | _, _ => None
  end.

(** the expression a whole text stands for *)
Definition read_expr (s : string) : option pyval :=
  match expr (2 * String.length s + 1) s with Some (v, EmptyString) => Some v | _ => None end.

(** What evaluating the expression gives: datetime.date, datetime.datetime and
    the rule classes are called with positional arguments. *)
Definition eval_int (v : pyval) : option Z := match v with PInt z => Some z | _ => None end.
Definition eval_opt {A} (f : pyval -> option A) (v : pyval) : option (option A) :=
  match v with PNone => Some None | _ => obind (f v) (fun x => Some (Some x)) end.
Definition eval_tuple {A} (f : pyval -> option A) (v : pyval) : option (list A) :=
  match v with PTuple l => omap f l | _ => None end.

Definition eval_date (v : pyval) : option dval :=
  match v with
  | PCall f l =>
      obind (omap eval_int l) (fun l =>
      if String.eqb f "datetime.date" then
        match l with [y; m; d] => if valid_ymd y m d then Some (VDate (ymd2ord y m d)) else None | _ => None end
      else if String.eqb f "datetime.datetime" then
        match l with
        | y :: m :: d :: rest =>
            let h := nth 0 rest 0 in let mi := nth 1 rest 0 in let s := nth 2 rest 0 in let us := nth 3 rest 0 in
            if valid_ymd y m d && (List.length rest <=? 4)%nat && (0 <=? h) && (h <? 24) && (0 <=? mi) && (mi <? 60)
               && (0 <=? s) && (s <? 60) && (0 <=? us) && (us <? 1000000)
            then Some (VDatetime (ymd2ord y m d * DAY + (((h * 60 + mi) * 60 + s) * 1000000 + us)))
            else None
        | _ => None
        end
      else None)
  | _ => None
  end.

Definition rule_class (f : string) : option kind :=
  if String.eqb f "BasicRecurrenceRule" then Some KBasic
  else if String.eqb f "NoRecurrenceRule" then Some KNo
  else if String.eqb f "DailyRecurrenceRule" then Some KDaily
  else if String.eqb f "YearlyRecurrenceRule" then Some KYearly
  else if String.eqb f "WeeklyRecurrenceRule" then Some KWeekly
  else if String.eqb f "MonthlyRecurrenceRule" then Some KMonthly
  else None.

(** the call of a rule class; [None]: no such call *)
Definition eval_rule (v : pyval) : option (res rule) :=
  match v with
  | PCall f (i :: c :: u :: x :: rest) =>
      obind (rule_class f) (fun k =>
      obind (eval_int i) (fun i =>
      obind (eval_opt eval_int c) (fun c =>
      obind (eval_opt eval_date u) (fun u =>
      obind (eval_tuple eval_date x) (fun x =>
      match k, rest with
      | KWeekly, [w] => obind (eval_tuple eval_int w) (fun w => Some (mk_rule k i c u x w "monthday"))
      | KMonthly, [PStr m] => Some (mk_rule k i c u x [] m)
      | KWeekly, _ | KMonthly, _ => None
      | _, [] => Some (mk_rule k i c u x [] "monthday")
      | _, _ => None
      end)))))
  | _ => None
  end.

(** * The reader reads what Python prints *)
Fixpoint show (v : pyval) : string :=
  match v with
  | PInt z => fmt_d z
  | PNone => "None"
  | PStr s => "'" ++ s ++ "'"
  | PTuple l => repr_tuple show l
  | PCall f l => f ++ "(" ++ join ", " (map show l) ++ ")"
  end%string.

Fixpoint all_chars (p : ascii -> bool) (s : string) : bool :=
  match s with EmptyString => true | String c r => p c && all_chars p r end.

Inductive good : pyval -> Prop :=
| good_int z : good (PInt z)
| good_none : good PNone
| good_str s : all_chars (fun x => negb (Ascii.eqb x "'"%char)) s = true -> good (PStr s)
| good_tuple l : Forall good l -> good (PTuple l)
| good_call f l : all_chars is_name f = true -> f <> ""%string -> f <> "None"%string -> Forall good l -> good (PCall f l).

Fixpoint good_rect (P : pyval -> Prop) (HI : forall z, P (PInt z)) (HN : P PNone)
  (HS : forall s, all_chars (fun x => negb (Ascii.eqb x "'"%char)) s = true -> P (PStr s))
  (HT : forall l, Forall good l -> Forall P l -> P (PTuple l))
  (HC : forall f l, all_chars is_name f = true -> f <> ""%string -> f <> "None"%string -> Forall good l -> Forall P l -> P (PCall f l))
  v (g : good v) {struct g} : P v :=
  let go := fix go l (H : Forall good l) : Forall P l :=
    match H with
    | Forall_nil _ => Forall_nil P
    | Forall_cons x hx hl => Forall_cons x (good_rect P HI HN HS HT HC _ hx) (go _ hl)
    end in
  match g with
  | good_int z => HI z
  | good_none => HN
  | good_str s h => HS s h
  | good_tuple l h => HT l h (go l h)
  | good_call f l a b c h => HC f l a b c h (go l h)
  end.

Definition stops (p : ascii -> bool) (s : string) : Prop := match s with EmptyString => True | String c _ => p c = false end.

Lemma span_app p a b : all_chars p a = true -> stops p b -> span p (a ++ b) = (a, b).
Proof.
  induction a as [|c a IH]; intros H S; cbn [append].
  - destruct b as [|c b]; [reflexivity|]. cbn in *. now rewrite S.
  - cbn in H. apply andb_true_iff in H as [H1 H2]. cbn [span]. rewrite H1, IH by assumption. reflexivity.
Qed.

Lemma app_s a b c : ((a ++ b) ++ c = a ++ (b ++ c))%string.
Proof. induction a as [|x a IH]; [reflexivity|]. cbn. now rewrite IH. Qed.
Lemma len_app a b : String.length (a ++ b) = (String.length a + String.length b)%nat.
Proof. induction a as [|x a IH]; [reflexivity|]. cbn. now rewrite IH. Qed.
Lemma app_nil_s a : (a ++ "" = a)%string.
Proof. induction a as [|x a IH]; [reflexivity|]. cbn. now rewrite IH. Qed.

(** the characters of a number *)
Lemma uint_digits u : all_chars is_digit (NilEmpty.string_of_uint u) = true.
Proof. induction u; cbn [NilEmpty.string_of_uint all_chars]; try rewrite IHu; reflexivity. Qed.

Lemma zuint_shape u : exists c a, NilZero.string_of_uint u = String c a /\ is_digit c = true /\ all_chars is_digit a = true.
Proof.
  unfold NilZero.string_of_uint. destruct u; cbn [NilEmpty.string_of_uint]; eexists; eexists; (split; [reflexivity|]); split; try reflexivity; apply uint_digits.
Qed.

Lemma fmt_shape z : exists c a, fmt_d z = String c a /\ (is_digit c || Ascii.eqb c "-"%char) = true /\ all_chars is_digit a = true.
Proof.
  unfold fmt_d. destruct (Z.to_int z) as [u|u]; cbn [NilZero.string_of_int]; destruct (zuint_shape u) as (c & a & E & D & A).
  - exists c, a. rewrite D. auto.
  - exists "-"%char, (NilZero.string_of_uint u). split; [reflexivity|]. split; [reflexivity|]. rewrite E. cbn [all_chars]. now rewrite D, A.
Qed.

Lemma digitish c : (is_digit c || Ascii.eqb c "-"%char) = true ->
  Ascii.eqb c "("%char = false /\ Ascii.eqb c "'"%char = false /\ Ascii.eqb c ")"%char = false /\ Ascii.eqb c " "%char = false.
Proof.
  intros H. repeat split; destruct (Ascii.eqb_spec c "("%char), (Ascii.eqb_spec c "'"%char), (Ascii.eqb_spec c ")"%char), (Ascii.eqb_spec c " "%char);
    subst; try reflexivity; vm_compute in H; discriminate.
Qed.

Lemma nameish c : is_name c = true ->
  Ascii.eqb c "("%char = false /\ Ascii.eqb c "'"%char = false /\ Ascii.eqb c ")"%char = false /\ Ascii.eqb c " "%char = false
  /\ (is_digit c || Ascii.eqb c "-"%char) = false.
Proof.
  intros H. assert (X : (is_digit c || Ascii.eqb c "-"%char) = false).
  { destruct (Ascii.eqb_spec c "-"%char) as [->|]; [vm_compute in H; discriminate|]. rewrite orb_false_r.
    unfold is_digit, digit.
    destruct ((48 <=? Z.of_nat (nat_of_ascii c)) && (Z.of_nat (nat_of_ascii c) <=? 57)) eqn:E; [|reflexivity]. exfalso. unfold is_name in H. lia. }
  repeat split; try exact X; destruct (Ascii.eqb_spec c "("%char), (Ascii.eqb_spec c "'"%char), (Ascii.eqb_spec c ")"%char), (Ascii.eqb_spec c " "%char);
    subst; try reflexivity; vm_compute in H; discriminate.
Qed.

(** no printed value starts with a closing parenthesis or a blank *)
Lemma show_head v : good v -> exists c r, show v = String c r /\ Ascii.eqb c ")"%char = false /\ Ascii.eqb c " "%char = false.
Proof.
  intros [z| |s H|l H|f l H N N2 F].
  - destruct (fmt_shape z) as (c & a & E & D & _). exists c, a. split; [exact E|]. apply digitish in D. tauto.
  - eexists. eexists. split; [reflexivity|]. split; reflexivity.
  - eexists. eexists. split; [reflexivity|]. split; reflexivity.
  - cbn [show]. unfold repr_tuple. destruct l as [|x [|y l]]; eexists; eexists; (split; [reflexivity|]); split; reflexivity.
  - destruct f as [|c f]; [congruence|]. cbn [all_chars] in H. apply andb_true_iff in H as [H _]. eexists. eexists.
    split; [reflexivity|]. apply nameish in H. tauto.
Qed.

Definition apart (s : string) : Prop := stops is_digit s /\ stops is_name s.
Definition reads (v : pyval) : Prop := forall n rest, (2 * String.length (show v) <= n)%nat -> apart rest ->
  expr n (show v ++ rest) = Some (v, rest).

Lemma items_head n v rest : good v ->
  items (S n) (show v ++ rest) = match expr n (show v ++ rest) with
           | Some (v, String d b) =>
               if Ascii.eqb d ","%char then
                 match items n b with Some (l, t, b') => Some (v :: l, t, b') | None => None end
               else if Ascii.eqb d ")"%char then Some ([v], false, b)
               else None
           | _ => None
           end.
Proof.
  intros G. destruct (show_head v G) as (c & r & E & P & B). rewrite E. cbn [append]. cbn [items]. rewrite P, B. reflexivity.
Qed.

Lemma items_reads l : Forall good l -> Forall reads l -> forall n rest, (2 * String.length (join ", " (map show l)) + 1 <= n)%nat ->
  items n (join ", " (map show l) ++ String ")"%char rest) = Some (l, match l with [] => true | _ => false end, rest).
Proof.
  intros G R. induction R as [|x l Hx R IH]; intros n rest L.
  - destruct n as [|n]; [cbn in L; lia|]. reflexivity.
  - inversion G as [|? ? Gx Gl]; subst. specialize (IH Gl). destruct n as [|n]; [lia|]. destruct l as [|y l].
    + cbn [map join] in *. rewrite items_head by assumption. rewrite Hx; [reflexivity|lia|now split].
    + set (t := join ", " (map show (y :: l))) in *.
      assert (E : join ", " (map show (x :: y :: l)) = (show x ++ ", " ++ t)%string) by reflexivity. rewrite E in *.
      rewrite !len_app in L. cbn [String.length] in L.
      replace ((show x ++ ", " ++ t) ++ String ")"%char rest)%string with (show x ++ String ","%char (String " "%char (t ++ String ")"%char rest)))%string
        by now rewrite app_s.
      rewrite items_head by assumption. rewrite Hx; [|lia|now split]. cbn [Ascii.eqb]. 
      change (Ascii.eqb "," ",") with true. cbv iota. destruct n as [|n]; [lia|].
      change (items (S n) (String " " (t ++ String ")" rest))) with (items n (t ++ String ")" rest)). rewrite IH by lia. reflexivity.
Qed.

Lemma show_reads v : good v -> reads v.
Proof.
  intros G. induction G as [z| |s H|l G R|f l A N N2 G R] using good_rect; intros n rest L SE; (destruct n as [|n]; [exfalso|]).
  - destruct (fmt_shape z) as (c & a & E & _). cbn [show] in L. rewrite E in L. cbn in L. lia.
  - cbn [show]. destruct (fmt_shape z) as (c & a & E & D & A). pose proof (read_fmt z) as RF. rewrite E in *. cbn [append expr].
    destruct (digitish _ D) as (H1 & H2 & _). rewrite H1, H2, D, (span_app _ _ _ A (proj1 SE)), RF. reflexivity.
  - cbn in L. lia.
  - cbn [show]. change (expr (S n) ("None" ++ rest)) with
      (let '(a, b) := span is_name ("None" ++ rest) in if String.eqb a "None" then Some (PNone, b)
        else match b with
             | String p b' => if Ascii.eqb p "("%char then match items n b' with Some (l, _, b'') => Some (PCall a l, b'') | None => None end else None
             | EmptyString => None end).
    rewrite (span_app is_name "None" rest eq_refl (proj2 SE)). reflexivity.
  - cbn in L. lia.
  - cbn [show]. rewrite app_s, app_s. change ("'" ++ s ++ "'" ++ rest)%string with (String "'" (s ++ String "'" rest)). cbn [expr].
    change (Ascii.eqb "'" "(") with false. change (Ascii.eqb "'" "'") with true. cbv iota.
    rewrite (span_app _ s (String "'" rest) H eq_refl). reflexivity.
  - cbn [show] in L. unfold repr_tuple in L. destruct l as [|? [|]]; cbn in L; lia.
  - destruct (match l with [x] => true | _ => false end) eqn:E1.
    + destruct l as [|x [|]]; try discriminate. inversion G; inversion R; subst. cbn [show] in *. unfold repr_tuple in *.
      rewrite !len_app in L. cbn [String.length] in L.
      replace (("(" ++ show x ++ ",)") ++ rest)%string with (String "(" (show x ++ String "," (String ")" rest))) by (rewrite !app_s; reflexivity).
      cbn [expr]. change (Ascii.eqb "(" "(") with true. cbv iota. destruct n as [|n]; [lia|]. rewrite items_head by assumption.
      match goal with H : reads x |- _ => rewrite H; [|lia|now split] end. change (Ascii.eqb "," ",") with true. cbv iota.
      destruct n as [|n]; [lia|]. reflexivity.
    + assert (E : show (PTuple l) = ("(" ++ join ", " (map show l) ++ ")")%string).
      { cbn [show]. unfold repr_tuple. destruct l as [|x [|]]; try discriminate E1; reflexivity. }
      rewrite E in *. rewrite !len_app in L. cbn [String.length] in L.
      replace (("(" ++ join ", " (map show l) ++ ")") ++ rest)%string with (String "(" (join ", " (map show l) ++ String ")" rest)) by (rewrite !app_s; reflexivity).
      cbn [expr]. change (Ascii.eqb "(" "(") with true. cbv iota. rewrite items_reads; [|assumption..|lia].
      destruct l as [|x [|]]; try discriminate E1; reflexivity.
  - cbn [show] in L. rewrite !len_app in L. cbn in L. lia.
  - cbn [show] in *. rewrite !len_app in L. cbn [String.length] in L.
    replace ((f ++ "(" ++ join ", " (map show l) ++ ")") ++ rest)%string with (f ++ String "(" (join ", " (map show l) ++ String ")" rest))%string by (rewrite !app_s; reflexivity).
    pose proof (span_app is_name f (String "(" (join ", " (map show l) ++ String ")" rest)) A eq_refl) as SP.
    destruct f as [|c f]; [congruence|]. cbn [append] in *. cbn [expr]. pose proof A as A'. cbn [all_chars] in A'. apply andb_true_iff in A' as [Ac _].
    destruct (nameish _ Ac) as (H1 & H2 & _ & _ & H3). rewrite H1, H2, H3. rewrite SP.
    destruct (String.eqb_spec (String c f) "None"); [contradiction|]. change (Ascii.eqb "(" "(") with true. cbv iota.
    rewrite items_reads; [reflexivity|assumption..|]. lia.
Qed.

Lemma read_show v : good v -> read_expr (show v) = Some v.
Proof.
  intros G. unfold read_expr. pose proof (show_reads v G (2 * String.length (show v) + 1)%nat ""%string) as R.
  rewrite app_nil_s in R. rewrite R; [reflexivity|lia|now split].
Qed.

(** * C83: the printed form of a rule is an expression that makes the rule *)
Definition is_day (v : dval) : Prop :=
  match v with
  | VDate o => 1 <= o <= MAXORD
  | VDatetime t => DAY <= t < (MAXORD + 1) * DAY
  | VOther => False
  end.

Definition date_args (o : Z) : list pyval := [PInt (year_of o); PInt (month_of o); PInt (day_of o)].
Definition dval_expr (v : dval) : pyval :=
  match v with
  | VDate o => PCall "datetime.date" (date_args o)
  | VDatetime t =>
      let sec := tod_second (dt_time t) in
      let us := dt_time t mod SECOND in
      PCall "datetime.datetime" (date_args (dt_date t) ++ [PInt (tod_hour (dt_time t)); PInt (tod_minute (dt_time t))]
        ++ (if us =? 0 then if sec =? 0 then [] else [PInt sec] else [PInt sec; PInt us]))
  | VOther => PNone
  end.
Definition opt_expr {A} (f : A -> pyval) (o : option A) : pyval := match o with Some x => f x | None => PNone end.
Definition rule_expr (r : rule) : pyval :=
  PCall (class_name (r_kind r)) ([PInt (r_interval r); opt_expr PInt (r_count r); opt_expr dval_expr (r_until r);
    PTuple (map dval_expr (r_exceptions r))]
    ++ match r_kind r with
       | KWeekly => [PTuple (map PInt (r_weekdays r))]
       | KMonthly => [PStr (r_monthly r)]
       | _ => []
       end).

Lemma show_dval v : is_day v -> show (dval_expr v) = repr_dval v.
Proof.
  destruct v as [o|t|]; intros H; [| |destruct H].
  - cbn [dval_expr repr_dval date_args show map join]. rewrite ?app_s. reflexivity.
  - cbn [dval_expr repr_dval]. cbv zeta. destruct (dt_time t mod SECOND =? 0); [destruct (tod_second (dt_time t) =? 0)|]; unfold date_args; simpl (_ ++ _)%list; cbn [show map join]; rewrite ?app_s; reflexivity.
Qed.

Lemma show_tuple {A} (f : A -> pyval) (g : A -> string) l : Forall (fun x => show (f x) = g x) l -> show (PTuple (map f l)) = repr_tuple g l.
Proof.
  intros H. assert (M : map show (map f l) = map g l). { induction H; [reflexivity|]. cbn. congruence. }
  cbn [show]. unfold repr_tuple. rewrite M. destruct l as [|x [|y l]]; try reflexivity. inversion H; subst. cbn. congruence.
Qed.

Lemma show_rule r : Forall is_day (r_exceptions r) -> (forall u, r_until r = Some u -> is_day u) -> show (rule_expr r) = rule_repr r.
Proof.
  intros X U.
  assert (S1 : show (opt_expr PInt (r_count r)) = repr_opt fmt_d (r_count r)) by (destruct (r_count r); reflexivity).
  assert (S2 : show (opt_expr dval_expr (r_until r)) = repr_opt repr_dval (r_until r)).
  { destruct (r_until r); [apply show_dval; auto|reflexivity]. }
  assert (S3 : show (PTuple (map dval_expr (r_exceptions r))) = repr_tuple repr_dval (r_exceptions r)).
  { apply show_tuple. revert X. apply Forall_impl. apply show_dval. }
  assert (S4 : show (PTuple (map PInt (r_weekdays r))) = repr_tuple fmt_d (r_weekdays r)).
  { apply show_tuple. apply Forall_forall. reflexivity. }
  unfold rule_expr, rule_repr. revert S1 S2 S3 S4. generalize (opt_expr PInt (r_count r)) (opt_expr dval_expr (r_until r))
    (PTuple (map dval_expr (r_exceptions r))) (PTuple (map PInt (r_weekdays r))). intros p1 p2 p3 p4 S1 S2 S3 S4.
  destruct (r_kind r); simpl (_ ++ _)%list; cbn [show map join class_name]; rewrite S1, S2, S3, ?S4, ?app_s; reflexivity.
Qed.

Lemma good_dval v : is_day v -> good (dval_expr v).
Proof.
  destruct v as [o|t|]; intros H; [| |destruct H]; cbn [dval_expr]; cbv zeta; (constructor; [reflexivity|discriminate|discriminate|]).
  - repeat constructor.
  - destruct (dt_time t mod SECOND =? 0); [destruct (tod_second (dt_time t) =? 0)|]; repeat constructor.
Qed.

Lemma good_rule r : Forall is_day (r_exceptions r) -> (forall u, r_until r = Some u -> is_day u) ->
  all_chars (fun x => negb (Ascii.eqb x "'"%char)) (r_monthly r) = true -> good (rule_expr r).
Proof.
  intros X U M. unfold rule_expr.
  assert (G1 : good (opt_expr PInt (r_count r))) by (destruct (r_count r); constructor).
  assert (G2 : good (opt_expr dval_expr (r_until r))) by (destruct (r_until r); [apply good_dval; auto|constructor]).
  assert (G3 : good (PTuple (map dval_expr (r_exceptions r)))).
  { constructor. apply Forall_map. revert X. apply Forall_impl, good_dval. }
  assert (G4 : good (PTuple (map PInt (r_weekdays r)))).
  { constructor. apply Forall_map, Forall_forall. constructor. }
  assert (G5 : good (PStr (r_monthly r))) by (constructor; exact M).
  destruct (r_kind r); (apply good_call; [reflexivity|discriminate|discriminate|]);
    (apply Forall_app; split; [|repeat (apply Forall_cons; [assumption|]); constructor]);
    (apply Forall_cons; [constructor|]); repeat (apply Forall_cons; [assumption|]); constructor.
Qed.

Lemma omap_ints l : omap eval_int (map PInt l) = Some l.
Proof. induction l as [|x l IH]; [reflexivity|]. cbn. rewrite IH. reflexivity. Qed.

Lemma valid_day o : 1 <= o <= MAXORD -> valid_ymd (year_of o) (month_of o) (day_of o) = true.
Proof.
  intros H. pose proof (ord2ymd_ok o ltac:(lia)) as Q. rewrite ord2ymd_eta in Q. destruct Q as (A & (B & C) & _).
  pose proof (year_le_iff o ltac:(lia)). unfold valid_ymd. lia.
Qed.

Lemma eval_dval v : is_day v -> eval_date (dval_expr v) = Some v.
Proof.
  destruct v as [o|t|]; intros H; [| |destruct H]; cbn [dval_expr is_day] in *.
  - unfold eval_date, date_args. change [PInt (year_of o); PInt (month_of o); PInt (day_of o)] with (map PInt [year_of o; month_of o; day_of o]).
    rewrite omap_ints. cbn [obind]. change (String.eqb "datetime.date" "datetime.date") with true. cbv iota.
    rewrite valid_day, ord_roundtrip by lia. reflexivity.
  - cbv zeta. set (o := dt_date t). assert (HO : 1 <= o <= MAXORD) by (unfold o, dt_date, DAY, MAXORD in *; lia).
    set (h := tod_hour (dt_time t)). set (mi := tod_minute (dt_time t)). set (sec := tod_second (dt_time t)). set (us := dt_time t mod SECOND).
    assert (HT : t = o * DAY + (((h * 60 + mi) * 60 + sec) * 1000000 + us) /\ 0 <= h < 24 /\ 0 <= mi < 60 /\ 0 <= sec < 60 /\ 0 <= us < 1000000).
    { unfold o, h, mi, sec, us, tod_hour, tod_minute, tod_second, dt_date, dt_time. clear.
      assert (T : t = t / DAY * DAY + t mod DAY) by (unfold DAY; lia). assert (Q0 : 0 <= t mod DAY < DAY) by (unfold DAY; lia).
      rewrite T at 1. clear T. set (d := t / DAY) in *. set (q := t mod DAY) in *. clearbody d q.
      unfold HOUR, MINUTE, SECOND, PyDate.SECOND, DAY in *.
      assert (A : q mod 60000000 = (q mod 3600000000) mod 60000000) by lia.
      assert (B : q mod 1000000 = (q mod 60000000) mod 1000000) by lia.
      rewrite B, A. clear A B. set (q1 := q mod 3600000000) in *. set (h := q / 3600000000).
      assert (E1 : q = 3600000000 * h + q1 /\ 0 <= q1 < 3600000000) by (unfold h, q1; lia). clearbody h q1.
      set (q2 := q1 mod 60000000) in *. set (m := q1 / 60000000).
      assert (E2 : q1 = 60000000 * m + q2 /\ 0 <= q2 < 60000000) by (unfold m, q2; lia). clearbody m q2.
      set (q3 := q2 mod 1000000) in *. set (x := q2 / 1000000).
      assert (E3 : q2 = 1000000 * x + q3 /\ 0 <= q3 < 1000000) by (unfold x, q3; lia). clearbody x q3. lia. }
    assert (E : forall rest, (List.length rest <= 2)%nat -> nth 0 rest 0 = sec -> nth 1 rest 0 = us ->
      eval_date (PCall "datetime.datetime" (date_args o ++ [PInt h; PInt mi] ++ map PInt rest)) = Some (VDatetime t)).
    { intros rest L N0 N1. unfold eval_date, date_args.
      change ([PInt (year_of o); PInt (month_of o); PInt (day_of o)] ++ [PInt h; PInt mi] ++ map PInt rest)
        with (map PInt ([year_of o; month_of o; day_of o; h; mi] ++ rest)). rewrite omap_ints. cbn [obind].
      change (String.eqb "datetime.datetime" "datetime.date") with false. change (String.eqb "datetime.datetime" "datetime.datetime") with true.
      cbv iota. cbn [Datatypes.app]. cbv beta iota zeta. change (nth 0 (h :: mi :: rest) 0) with h. change (nth 1 (h :: mi :: rest) 0) with mi.
      change (nth 2 (h :: mi :: rest) 0) with (nth 0 rest 0). change (nth 3 (h :: mi :: rest) 0) with (nth 1 rest 0). rewrite N0, N1, valid_day, ord_roundtrip by lia. cbn [andb].
      replace (List.length (h :: mi :: rest) <=? 4)%nat with true by (cbn; symmetry; apply Nat.leb_le; cbn; lia).
      destruct (_ && _) eqn:B; [|exfalso; lia]. f_equal. f_equal. symmetry. apply HT. }
    destruct (us =? 0) eqn:U; [destruct (sec =? 0) eqn:SS|].
    + apply (E []); cbn; lia.
    + apply (E [sec]); cbn; lia.
    + apply (E [sec; us]); cbn; lia.
Qed.

Lemma omap_dvals l : Forall is_day l -> omap eval_date (map dval_expr l) = Some l.
Proof. induction 1 as [|x l H F IH]; [reflexivity|]. cbn [map omap]. rewrite eval_dval by assumption. cbn [obind]. rewrite IH. reflexivity. Qed.

Lemma valid_monthly r : r_kind r = KMonthly -> validate r = Ok tt -> In (r_monthly r) ["monthday"; "weekday"; "lastweekday"]%string.
Proof.
  intros K V. unfold validate in V. rewrite K in V. apply str_in_iff.
  destruct (basic_validate r); cbn [rbind] in V; try discriminate. destruct (str_in _ _); [reflexivity|discriminate].
Qed.

Lemma class_back k : rule_class (class_name k) = Some k.
Proof. destruct k; reflexivity. Qed.

(** Every rule a constructor makes, with until and exceptions that are dates or
    datetimes: the printed form is a Python expression whose value is the rule. *)
Theorem C83_repr_makes k i c u x w m r : mk_rule k i c u x w m = Ok r ->
  (forall v, u = Some v -> is_day v) -> Forall is_day x ->
  exists v, read_expr (rule_repr r) = Some v /\ eval_rule v = Some (Ok r).
Proof.
  intros E U X. exists (rule_expr r). pose proof E as E0. unfold mk_rule in E0.
  destruct (validate _) as [[]| |] eqn:V; cbn [rbind] in E0; try discriminate. injection E0 as <-.
  set (r := mkRule _ _ _ _ _ _ _) in *.
  assert (M : all_chars (fun y => negb (Ascii.eqb y "'"%char)) (r_monthly r) = true).
  { destruct k; try reflexivity. apply valid_monthly in V; [|reflexivity].
    destruct V as [V|[V|[V|[]]]]; rewrite <- V; reflexivity. }
  split.
  - rewrite <- show_rule by assumption. apply read_show, good_rule; assumption.
  - unfold rule_expr. unfold eval_rule. cbn [Datatypes.app]. cbv iota beta. rewrite class_back. cbn [obind eval_int].
    assert (C : eval_opt eval_int (opt_expr PInt (r_count r)) = Some (r_count r)) by (destruct c; reflexivity). rewrite C. cbn [obind].
    assert (UU : eval_opt eval_date (opt_expr dval_expr (r_until r)) = Some (r_until r)).
    { unfold r. cbn [r_until]. destruct u as [u|]; [|reflexivity]. cbn [opt_expr]. pose proof (eval_dval u (U u eq_refl)) as D.
      destruct u as [o|t|]; [| |destruct (U VOther eq_refl)]; cbn [dval_expr] in *; unfold eval_opt; cbv zeta in *; rewrite D; reflexivity. }
    rewrite UU. cbn [obind eval_tuple]. rewrite omap_dvals by assumption. cbn [obind].
    destruct k; cbn [r_kind r]; cbn [obind eval_tuple]; rewrite ?omap_ints; cbn [obind]; exact (f_equal Some E).
Qed.
Print Assumptions C83_repr_makes.

(** hence rules print alike only if they are the same rule *)
Theorem C83_repr_distinct k i c u x w m r k' i' c' u' x' w' m' r' :
  mk_rule k i c u x w m = Ok r -> (forall v, u = Some v -> is_day v) -> Forall is_day x ->
  mk_rule k' i' c' u' x' w' m' = Ok r' -> (forall v, u' = Some v -> is_day v) -> Forall is_day x' ->
  (rule_repr r = rule_repr r' <-> r = r').
Proof.
  intros E U X E' U' X'. split; [|congruence]. intros H.
  destruct (C83_repr_makes _ _ _ _ _ _ _ _ E U X) as (v & R & V). destruct (C83_repr_makes _ _ _ _ _ _ _ _ E' U' X') as (v' & R' & V').
  congruence.
Qed.
Print Assumptions C83_repr_distinct.

Example C83_case : exists r, mk_rule KWeekly 2 None (Some (VDatetime (732500 * DAY + 9 * HOUR + 5))) [VDate 732501] [0; 4] "" = Ok r
  /\ is_day (VDatetime (732500 * DAY + 9 * HOUR + 5)) /\ is_day (VDate 732501)
  /\ rule_repr r = "WeeklyRecurrenceRule(2, None, datetime.datetime(2006, 7, 8, 9, 0, 0, 5), (datetime.date(2006, 7, 9),), (0, 4))"%string.
Proof. eexists. split; [reflexivity|]. split; [now vm_compute|]. split; [now vm_compute|]. vm_compute. reflexivity. Qed.

(** * C82: the choices offered are those the library knows *)
(** every vocabulary can be built; no value and no token is offered twice *)
Theorem C82_offered : exists st ac mo wd,
  status_vocabulary = Ok st /\ access_vocabulary = Ok ac /\ monthly_vocabulary = Ok mo /\ weekdays_vocabulary = Ok wd
  /\ NoDup (map fst st) /\ NoDup (map snd st) /\ NoDup (map fst ac) /\ NoDup (map snd ac)
  /\ NoDup (map fst mo) /\ NoDup (map snd mo) /\ NoDup (map fst wd) /\ NoDup (map snd wd).
Proof.
  do 4 eexists. do 4 (split; [vm_compute; reflexivity|]).
  repeat split; cbn; repeat constructor; cbn; intuition discriminate.
Qed.
Print Assumptions C82_offered.

(** a monthly rule is accepted exactly for the offered values, given an
    acceptable rest; the same for each weekday of a weekly rule *)
Theorem C82_monthly_iff mo i c u x m r0 : monthly_vocabulary = Ok mo ->
  mk_rule KMonthly i c u x [] "monthday" = Ok r0 ->
  ((exists r, mk_rule KMonthly i c u x [] m = Ok r) <-> In m (map fst mo)).
Proof.
  intros V E. vm_compute in V. injection V as <-. unfold mk_rule, validate in *. cbn [r_kind] in *. unfold basic_validate in *.
  cbn [r_count r_until r_interval r_exceptions r_monthly] in *.
  destruct (match c with Some _ => _ | None => _ end) as [[]| |] eqn:B; cbn [rbind] in *; try discriminate.
  cbn [map fst]. rewrite <- str_in_iff. destruct (str_in m _) eqn:S; cbn [rbind]; split; intros H; try discriminate; eauto.
  destruct H. discriminate.
Qed.
Print Assumptions C82_monthly_iff.

Theorem C82_weekdays_iff wd i c u x l r0 : weekdays_vocabulary = Ok wd ->
  mk_rule KWeekly i c u x [] "" = Ok r0 ->
  ((exists r, mk_rule KWeekly i c u x l "" = Ok r) <-> (forall d, In d l -> In d (map fst wd))).
Proof.
  intros V E. vm_compute in V. injection V as <-. unfold mk_rule, validate in *. cbn [r_kind] in *. unfold basic_validate in *.
  cbn [r_count r_until r_interval r_exceptions r_weekdays] in *.
  destruct (match c with Some _ => _ | None => _ end) as [[]| |] eqn:B; cbn [rbind] in *; try discriminate.
  assert (Q : forall d, In d [0; 1; 2; 3; 4; 5; 6] <-> 0 <= d <= 6) by (intros d; cbn; lia).
  cbn [map fst]. destruct (forallb _ l) eqn:S; cbn [rbind].
  - rewrite forallb_forall in S. split; intros H; [|eauto]. intros d D. apply Q. specialize (S d D). lia.
  - split; intros H; [destruct H; discriminate|]. exfalso. apply Bool.not_true_iff_false in S. apply S, forallb_forall.
    intros d D. specialize (H d D). apply Q in H. lia.
Qed.
Print Assumptions C82_weekdays_iff.

(** of the offered statuses exactly one frees the time of those who accepted an
    event that is not transparent *)
Theorem C82_status_blocks st a e t : status_vocabulary = Ok st -> In t (map fst st) ->
  e_status e = t -> e_transparent e = false -> get_status e a = Ok (Some "ACCEPTED"%string) ->
  (blocks a e = Ok true <-> t <> "CANCELED"%string) /\ (blocks a e = Ok false <-> t = "CANCELED"%string).
Proof.
  intros V I E T A. vm_compute in V. injection V as <-. unfold blocks. rewrite T, E, A. cbn [orb rbind].
  destruct I as [<-|[<-|[<-|[]]]]; cbn; split; split; congruence.
Qed.
Print Assumptions C82_status_blocks.

(** there is one: an event that is called off blocks nobody, and a form can call
    it off *)
Theorem C82_status_frees st : status_vocabulary = Ok st ->
  exists t, In t (map fst st) /\ (forall a e, e_status e = t -> blocks a e = Ok false)
    /\ forall t', In t' (map fst st) -> t' <> t ->
       exists a e, e_status e = t' /\ e_transparent e = false /\ blocks a e = Ok true.
Proof.
  intros V. vm_compute in V. injection V as <-. exists "CANCELED"%string. split; [cbn; auto|]. split.
  - intros a e E. unfold blocks. rewrite E, orb_true_r. reflexivity.
  - intros t' I N. exists (Some "ann"%string).
    exists (with_state (set_attrs (mkSpec 0 (Some HOUR) "" "" "" t' None false [] false "PUBLIC" None None []) (blank "x")) [("ann", "ACCEPTED")]%string).
    split; [reflexivity|]. split; [reflexivity|]. destruct I as [<-|[<-|[<-|[]]]]; [vm_compute; reflexivity..|now elim N].
Qed.
Print Assumptions C82_status_frees.

(** what an import gives an event without STATUS or CLASS is among the choices *)
Theorem C82_defaults st ac tz kn ma v sp : status_vocabulary = Ok st -> access_vocabulary = Ok ac ->
  import_spec tz kn ma v = Ok sp -> (v_status v = None -> In (s_status sp) (map fst st)) /\ (v_class v = None -> In (s_access sp) (map fst ac)).
Proof.
  intros V A. vm_compute in V, A. injection V as <-. injection A as <-. unfold import_spec.
  intros E. split; intros N; rewrite N in E; cbn [dflt] in E;
    repeat (match type of E with rbind ?x _ = Ok _ => destruct x; [cbn [rbind] in E|discriminate E..] | (let '(_, _) := ?x in _) = Ok _ => destruct x end);
    injection E as <-; cbn; auto.
Qed.
Print Assumptions C82_defaults.

(** the CLASS and STATUS values of events in RFC 2445, 4.8.1.3 and 4.8.1.11 *)
Definition rfc_classes : list string := ["PUBLIC"; "PRIVATE"; "CONFIDENTIAL"]%string.
Definition rfc_statuses : list string := ["TENTATIVE"; "CONFIRMED"; "CANCELLED"]%string.
Theorem C82_access_rfc ac x : access_vocabulary = Ok ac -> (In x (map fst ac) <-> In x rfc_classes).
Proof. intros A. vm_compute in A. injection A as <-. reflexivity. Qed.
Print Assumptions C82_access_rfc.

(** but the status that frees the time is spelt differently: what a form can
    choose is not what the standard has, and the standard's word frees nothing *)
Theorem C82_status_rfc st : status_vocabulary = Ok st ->
  exists t, In t (map fst st) /\ ~ In t rfc_statuses /\ (forall x, In x (map fst st) -> x <> t -> In x rfc_statuses)
    /\ forall x, In x rfc_statuses -> exists a e, e_status e = x /\ e_transparent e = false /\ blocks a e = Ok true.
Proof.
  intros V. vm_compute in V. injection V as <-. exists "CANCELED"%string. split; [cbn; auto|]. split; [cbn; intuition discriminate|]. split.
  - intros x [<-|[<-|[<-|[]]]] N; [cbn; auto..|now elim N].
  - intros x I. exists (Some "ann"%string).
    exists (with_state (set_attrs (mkSpec 0 (Some HOUR) "" "" "" x None false [] false "PUBLIC" None None []) (blank "x")) [("ann", "ACCEPTED")]%string).
    split; [reflexivity|]. split; [reflexivity|]. destruct I as [<-|[<-|[<-|[]]]]; vm_compute; reflexivity.
Qed.
Print Assumptions C82_status_rfc.

(** an accepted, cancelled event; acceptable rules of both kinds *)
Definition dinner : event :=
  with_state (set_attrs (mkSpec (732500 * DAY) (Some HOUR) "Dinner" "" "" "CANCELED" None false [] false "PUBLIC" None None []) (blank "x"))
    [("ann", "ACCEPTED")]%string.
Example C82_case : e_transparent dinner = false /\ get_status dinner (Some "ann"%string) = Ok (Some "ACCEPTED"%string)
  /\ blocks (Some "ann"%string) dinner = Ok false
  /\ (exists r, mk_rule KMonthly 1 None None [] [] "monthday" = Ok r) /\ (exists r, mk_rule KWeekly 1 None None [] [] "" = Ok r).
Proof. vm_compute. repeat split; eauto. Qed.
