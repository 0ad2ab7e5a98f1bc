(** Property theorems: what raises, and exactly what. *)
From Verif Require Import Base PyDate DateFacts Recurrent RecurProofs RecurMisc CalTime Event Storage ICal System RuleText SpecText TextProofs
  ICalProofs PropICal.
From Coq Require Import ZifyBool.
Ltac Zify.zify_post_hook ::= Z.div_mod_to_equations.

Lemma year_of_fst o : year_of o = fst (fst (ord2ymd o)).
Proof. reflexivity. Qed.

Lemma month_has y m : 28 <= days_in_month y m.
Proof. unfold days_in_month. destruct (m =? 2); [destruct (is_leap y); lia|]. destruct ((m =? 4) || (m =? 6) || (m =? 9) || (m =? 11)); lia. Qed.

Local Opaque ord2ymd year_of month_of day_of ymd2ord days_in_month is_leap.

(** a computation raises exactly the exceptions of [P], of which there is at most one *)
Definition decides {A} (r : res A) (P : exn -> Prop) : Prop :=
  (exists a, r = Ok a /\ forall y, ~ P y) \/ (exists x, r = Raise x /\ forall y, P y <-> y = x).

Lemma decides_iff {A} (r : res A) P y : decides r P -> (r = Raise y <-> P y).
Proof.
  intros [(a & -> & H)|(x & -> & H)]; [split; [discriminate|intros X; destruct (H y X)]|]. rewrite H.
  split; [now injection 1|now intros ->].
Qed.

Lemma decides_bind {A B} (r : res A) (f : A -> res B) P Q : decides r P -> (forall a, r = Ok a -> decides (f a) Q) ->
  decides (rbind r f) (fun y => P y \/ (forall z, ~ P z) /\ Q y).
Proof.
  intros [(a & E & H)|(x & E & H)] K; rewrite E; cbn [rbind].
  - destruct (K a E) as [(b & -> & N)|(z & -> & N)].
    + left. exists b. split; [reflexivity|]. intros y [X|[_ X]]; [exact (H y X)|exact (N y X)].
    + right. exists z. split; [reflexivity|]. intros y. rewrite <- N. split; [intros [X|[_ X]]; [destruct (H y X)|exact X]|auto].
  - right. exists x. split; [reflexivity|]. intros y. rewrite <- H. split; [intros [X|[X _]]; [exact X|]|auto].
    exfalso. apply (X x). now apply H.
Qed.

Lemma decides_ok {A} (a : A) : decides (Ok a) (fun _ => False).
Proof. left. exists a. split; [reflexivity|auto]. Qed.

Lemma decides_ext {A} (r : res A) P Q : decides r P -> (forall y, P y <-> Q y) -> decides r Q.
Proof.
  intros [(a & E & H)|(x & E & H)] K; [left; exists a|right; exists x]; (split; [exact E|]); intros y; rewrite <- K; apply H.
Qed.

(** * C52 *)
(** a value without a text: no date at all, or a date before 1900 *)
Definition no_text (v : dval) (x : exn) : Prop :=
  match v with
  | VDate o => x = ValueError /\ year_of o < 1900
  | VDatetime t => x = ValueError /\ year_of (t / DAY) < 1900
  | VOther => x = AttributeError
  end.

Definition first_without_text (l : list dval) (x : exn) : Prop :=
  exists l1 v l2, l = l1 ++ v :: l2 /\ no_text v x /\ forall w y, In w l1 -> ~ no_text w y.

(** the until that is written: none when there is a count other than zero *)
Definition until_written (r : rule) : option dval :=
  match r_count r with Some c => if c =? 0 then r_until r else None | None => r_until r end.

Definition no_place (r : rule) (x : exn) : Prop :=
  (r_kind r = KWeekly /\ x = IndexError /\ exists w, In w (r_weekdays r) /\ (w < -7 \/ 6 < w))
  \/ (r_kind r = KMonthly /\ x = NotImplementedError /\ ~ In (r_monthly r) ["monthday"; "weekday"; "lastweekday"]%string).

(** nothing goes wrong before, in the order of the text *)
Definition without_text (r : rule) (x : exn) : Prop :=
  let until_fails y := exists u, until_written r = Some u /\ no_text u y in
  match r_kind r with
  | KBasic | KNo => x = AssertionError
  | _ => until_fails x
         \/ (forall y, ~ until_fails y) /\ (no_place r x \/ (forall y, ~ no_place r y) /\ first_without_text (r_exceptions r) x)
  end.

Lemma strftime_decides o : decides (strftime_date o) (fun x => x = ValueError /\ year_of o < 1900).
Proof.
  unfold strftime_date. pose proof (year_of_fst o) as Y.
  destruct (ord2ymd o) as [[y m] d]. cbn [fst] in Y. destruct (y <? 1900) eqn:L.
  - right. exists ValueError. split; [reflexivity|]. intros z. split; [now intros [-> _]|intros ->; split; [reflexivity|lia]].
  - left. eexists. split; [reflexivity|]. intros z [_ X]. lia.
Qed.

Lemma ical_date_decides v : decides (ical_date v) (no_text v).
Proof.
  destruct v as [o|t|]; cbn [ical_date no_text]; [apply strftime_decides|apply strftime_decides|].
  right. exists AttributeError. split; [reflexivity|]. intros y. reflexivity.
Qed.

Lemma rmap_date_decides l : decides (rmap ical_date l) (first_without_text l).
Proof.
  induction l as [|v l IH].
  - left. exists []. split; [reflexivity|]. intros y (l1 & v & l2 & E & _). destruct l1; discriminate.
  - cbn [rmap]. eapply decides_ext.
    + apply decides_bind; [apply ical_date_decides|]. intros a _. apply decides_bind; [exact IH|]. intros b _. apply decides_ok.
    + intros y. cbn beta. split.
      * intros [X|[N [(l1 & w & l2 & E & X & M)|[_ []]]]]; [exists [], v, l; split; [reflexivity|]; split; [exact X|intros ? ? []]|].
        exists (v :: l1), w, l2. split; [now rewrite E|]. split; [exact X|]. intros w' z [<-|I]; [apply N|now apply M].
      * intros (l1 & w & l2 & E & X & M). destruct l1 as [|a l1]; injection E as <- E; [now left|]. right.
        split; [intros z; apply M; now left|]. left. exists l1, w, l2. split; [exact E|]. split; [exact X|]. intros w' z I. apply M. now right.
Qed.

Lemma ical_weekday_decides w : decides (ical_weekday w) (fun x => x = IndexError /\ (w < -7 \/ 6 < w)).
Proof.
  unfold ical_weekday. cbv zeta. destruct ((0 <=? (if w <? 0 then w + 7 else w)) && ((if w <? 0 then w + 7 else w) <? 7)) eqn:B.
  - left. eexists. split; [reflexivity|]. intros y [_ X]. destruct (w <? 0) eqn:L; lia.
  - right. exists IndexError. split; [reflexivity|]. intros y. split; [now intros [-> _]|intros ->; split; [reflexivity|]].
    destruct (w <? 0) eqn:L; lia.
Qed.

Lemma rmap_weekday_decides l : decides (rmap ical_weekday l) (fun x => x = IndexError /\ exists w, In w l /\ (w < -7 \/ 6 < w)).
Proof.
  induction l as [|v l IH].
  - left. exists []. split; [reflexivity|]. intros y (_ & w & [] & _).
  - cbn [rmap]. eapply decides_ext.
    + apply decides_bind; [apply ical_weekday_decides|]. intros a _. apply decides_bind; [exact IH|]. intros b _. apply decides_ok.
    + intros y. cbn beta. split.
      * intros [[-> X]|[N [(-> & w & I & X)|[_ []]]]]; (split; [reflexivity|]); [exists v; split; [now left|exact X]|exists w; split; [now right|exact X]].
      * intros (-> & w & [<-|I] & X); [left; auto|]. destruct (Z_lt_dec v (-7)) as [A|A]; [left; auto|]. destruct (Z_lt_dec 6 v) as [B|B]; [left; auto|].
        right. split; [intros z [_ [Y|Y]]; lia|]. left. split; [reflexivity|]. exists w. auto.
Qed.

Lemma weekday_named o : exists s, ical_weekday (weekday o) = Ok s.
Proof.
  unfold ical_weekday, weekday. replace ((o + 6) mod 7 <? 0) with false by lia.
  replace ((0 <=? (o + 6) mod 7) && ((o + 6) mod 7 <? 7)) with true by lia. eexists. reflexivity.
Qed.

Lemma ical_args_decides r dt : decides (ical_args r dt) (no_place r).
Proof.
  unfold ical_args, no_place. destruct (r_kind r); try (left; eexists; split; [reflexivity|]; intros y [(X & _)|(X & _)]; discriminate).
  - destruct (r_weekdays r) as [|w l].
    + left. eexists. split; [reflexivity|]. intros y [(_ & _ & w & [] & _)|(X & _)]; discriminate.
    + eapply decides_ext; [apply decides_bind; [apply rmap_weekday_decides|]; intros a _; apply decides_ok|]. intros y. cbn beta. split.
      * intros [(-> & X)|[_ []]]. left. auto.
      * intros [(_ & X)|(X & _)]; [now left|discriminate].
  - cbv zeta. destruct (weekday_named (dt_date dt)) as (s & W).
    destruct (String.eqb_spec (r_monthly r) "monthday") as [E|N1]; [left; eexists; split; [reflexivity|]; intros y [(X & _)|(_ & _ & X)]; [discriminate|apply X; rewrite E; cbn; auto]|].
    destruct (String.eqb_spec (r_monthly r) "weekday") as [E|N2]; [rewrite W; left; eexists; split; [reflexivity|]; intros y [(X & _)|(_ & _ & X)]; [discriminate|apply X; rewrite E; cbn; auto]|].
    destruct (String.eqb_spec (r_monthly r) "lastweekday") as [E|N3]; [rewrite W; left; eexists; split; [reflexivity|]; intros y [(X & _)|(_ & _ & X)]; [discriminate|apply X; rewrite E; cbn; auto]|].
    right. exists NotImplementedError. split; [reflexivity|]. intros y. split; [intros [(X & _)|(_ & -> & _)]; [discriminate|reflexivity]|].
    intros ->. right. split; [reflexivity|]. split; [reflexivity|]. intros [X|[X|[X|[]]]]; congruence.
Qed.

(** what making the lines raises, for every rule object *)
Theorem C52_raises r dtstart x : ical_representation r dtstart = Raise x <-> without_text r x.
Proof.
  unfold ical_representation, without_text.
  assert (K : forall f, 
    decides (let* args := match r_count r with
                          | Some c => if c =? 0 then match r_until r with
                                                     | Some u => let* t := ical_datetime u in Ok ("UNTIL=" ++ t ++ ";")%string
                                                     | None => Ok ""%string
                                                     end else Ok ("COUNT=" ++ fmt_d c ++ ";")%string
                          | None => match r_until r with
                                    | Some u => let* t := ical_datetime u in Ok ("UNTIL=" ++ t ++ ";")%string
                                    | None => Ok ""%string
                                    end
                          end in
             let* extra := ical_args r dtstart in
             let args := match extra with Some x => (args ++ x ++ ";")%string | None => args end in
             let rr := ("RRULE:FREQ=" ++ f ++ ";" ++ args ++ "INTERVAL=" ++ fmt_d (r_interval r))%string in
             match r_exceptions r with
             | [] => Ok [rr]
             | l => let* dates := rmap ical_date l in Ok [rr; ("EXDATE;VALUE=DATE:" ++ join "," dates)%string]
             end)
      (fun x => (exists u, until_written r = Some u /\ no_text u x)
         \/ (forall y, ~ exists u, until_written r = Some u /\ no_text u y)
            /\ (no_place r x \/ (forall y, ~ no_place r y) /\ first_without_text (r_exceptions r) x))).
  { intros f. apply decides_bind.
    - assert (U : forall o, decides (match o with
                                     | Some u => let* t := ical_datetime u in Ok ("UNTIL=" ++ t ++ ";")%string
                                     | None => Ok ""%string
                                     end) (fun x => exists u, o = Some u /\ no_text u x)).
      { intros [u|]; [|left; eexists; split; [reflexivity|]; intros y (u & E & _); discriminate].
        eapply decides_ext; [apply decides_bind|].
        - unfold ical_datetime. apply decides_bind; [apply ical_date_decides|]. intros a _. apply decides_ok.
        - intros a _. apply decides_ok.
        - intros y. cbn beta. split; [intros [[X|[_ []]]|[_ []]]; eauto|]. intros (u' & E & X). injection E as <-. auto. }
      unfold until_written. destruct (r_count r) as [c|]; [|apply U]. destruct (c =? 0); [apply U|].
      left. eexists. split; [reflexivity|]. intros y (u & E & _). discriminate.
    - intros a _. apply decides_bind; [apply ical_args_decides|]. intros b _. cbv zeta. pose proof (rmap_date_decides (r_exceptions r)) as D.
      destruct (r_exceptions r) as [|v l].
      + destruct D as [(z & _ & N)|(z & E & _)]; [|discriminate]. left. eexists. split; [reflexivity|exact N].
      + eapply decides_ext; [apply decides_bind; [exact D|]; intros d _; apply decides_ok|]. intros y. cbn beta. split; [intros [X|[_ []]]; exact X|auto]. }
  destruct (r_kind r) eqn:KI; cbn [ical_freq]; first [exact (decides_iff _ _ x (K _))|split; [now injection 1|now intros ->]].
Qed.
Print Assumptions C52_raises.

Example C52_raises_case :
  let daily c u e := mkRule KDaily 1 c u e [] "monthday"%string in
  without_text (daily None (Some (VDate 600000)) [VOther]) ValueError
  /\ without_text (daily (Some 2) None [VDate 732500; VOther; VDate 600000]) AttributeError
  /\ without_text (mkRule KWeekly 1 None None [VOther] [0; 9] "monthday"%string) IndexError
  /\ without_text (mkRule KMonthly 1 None None [VOther] [] "sometimes"%string) NotImplementedError.
Proof. cbv zeta. do 3 (split; [apply (proj1 (C52_raises _ 63288000000000000 _)); vm_compute; reflexivity|]). apply (proj1 (C52_raises _ 63288000000000000 _)). vm_compute. reflexivity. Qed.

(** * C14 *)
(** a weekday that does not exist: the search ends with the seventh *)
Theorem C14_no_weekday y m n wd : 1 <= y <= MAXYEAR -> 1 <= m <= 12 -> 0 <= n -> ~ 0 <= wd <= 6 ->
  monthindex y m n wd = date_add (ymd2ord y m 7) ((n - 1) * 7).
Proof.
  intros Y M N W. unfold monthindex. replace (n <? 0) with false by lia.
  assert (P : forall d, 1 <= d <= 7 -> py_date y m d = Ok (ymd2ord y m d)).
  { intros d D. unfold py_date, c_int, valid_ymd. pose proof (month_has y m).
    replace (negb _) with false by (unfold INT_MIN, INT_MAX, MAXYEAR in *; lia). now replace (_ && _) with true by lia. }
  assert (X : forall k d, d + Z.of_nat k = 8 -> 1 <= d -> find_first_day k y m wd d = Ok 7).
  { induction k as [|k IH]; intros d D L; [cbn [find_first_day]; f_equal; lia|]. cbn [find_first_day]. rewrite P by lia. cbn [rbind].
    replace (weekday (ymd2ord y m d) =? wd) with false by (unfold weekday; lia). apply IH; lia. }
  rewrite (X 7%nat 1) by lia. cbn [rbind]. rewrite P by lia. reflexivity.
Qed.
Print Assumptions C14_no_weekday.

Example C14_no_weekday_case : monthindex 2006 7 2 9 = Ok (ymd2ord 2006 7 14).
Proof. vm_compute. reflexivity. Qed.

(** any other number: weeks are counted on from the first or back from the last
    such weekday of the month, out of the month where need be *)
Theorem C14_any_number y m n wd : 1 <= y <= MAXYEAR -> 1 <= m <= 12 -> 0 <= wd <= 6 ->
  (0 <= n -> exists d, monthindex y m 1 wd = Ok d /\ monthindex y m n wd = date_add d ((n - 1) * 7))
  /\ (n < 0 -> ~ (y = 9999 /\ m = 12) -> exists d, monthindex y m (-1) wd = Ok d /\ monthindex y m n wd = date_add d ((n + 1) * 7))
  /\ (n < 0 -> y = 9999 -> m = 12 -> monthindex y m n wd = Raise ValueError).
Proof.
  intros Y M W. split; [|split].
  - intros N. destruct (monthindex_front y m 1 wd Y M ltac:(lia) W) as (d & D & _). exists d. split; [exact D|]. revert D.
    unfold monthindex. replace (n <? 0) with false by lia. replace (1 <? 0) with false by lia.
    destruct (find_first_day 7 y m wd 1) as [day| |]; try discriminate. cbn [rbind]. destruct (py_date y m day) as [o| |]; try discriminate. cbn [rbind].
    intros D. unfold date_add in *. replace (o + (1 - 1) * 7) with o in D by lia. destruct (_ && _) in D; [|discriminate]. injection D as <-. reflexivity.
  - intros N ND. destruct (monthindex_back y m 1 wd Y M ND ltac:(lia) W) as (d & D & _). exists d. split; [exact D|]. revert D.
    unfold monthindex. replace (n <? 0) with true by lia. replace (- (1) <? 0) with true by lia.
    destruct (find_first_day 7 (y + m / 12) (m mod 12 + 1) wd 1) as [day| |]; try discriminate. cbn [rbind]. destruct (py_date _ _ day) as [o| |]; try discriminate. cbn [rbind].
    intros D. unfold date_add in *. destruct (_ && _) in D; [|discriminate]. injection D as <-.
    replace (o + (n + 1 - 1) * 7) with (o + -7 + (n + 1) * 7) by lia. reflexivity.
  - intros N -> ->. unfold monthindex. replace (n <? 0) with true by lia. reflexivity.
Qed.
Print Assumptions C14_any_number.

Example C14_any_number_case : monthindex 2006 7 5 4 = Ok (ymd2ord 2006 8 4) /\ monthindex 2006 7 (-5) 4 = Ok (ymd2ord 2006 6 30)
  /\ monthindex 9999 12 (-1) 4 = Raise ValueError.
Proof. vm_compute. auto. Qed.
