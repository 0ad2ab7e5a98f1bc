(** Further theorems of C129: days, blocked and free periods of a calendar that was moved. *)
From Verif Require Import Base PyDate Recurrent CalTime Util Event Storage.
From Verif Require Import QueryProofs PropShift.

(** the two times of every period, moved *)
Definition move_pair (h : Z) (x : Z * Z) : Z * Z := (fst x + h * DAY, snd x + h * DAY).

(** every event's rule looks the same after [h] days *)
Definition moves_by (h : Z) (e : event) : Prop :=
  exists k, h = k * match e_recurrence e with Some r => turn (r_kind r) | None => 1 end.
Definition movable (h : Z) (evs : list event) : Prop := forall e, In e evs ->
  moves_by h e /\ event_rule_ok e /\ 1 <= dt_date (e_dtstart e) /\ 1 <= dt_date (e_dtstart e) + h.

(** ** occurrences *)
Theorem C129_occurrences_move : forall F F' evs p c out out' h, movable h evs ->
  get_occurrences F evs p c = Ok out ->
  get_occurrences F' (map (move_event h) evs) (move_period h p) c = Ok out' ->
  out' = map (move_occ h) out.
Proof.
  intros F F' evs p c out out' h H E E'. unfold get_occurrences in E, E'.
  destruct (assert_bounded p); try discriminate. destruct (assert_bounded (move_period h p)); try discriminate. cbn [rbind] in E, E'.
  destruct (matching_events evs c) as [l| |] eqn:M; try discriminate.
  destruct (matching_events (map (move_event h) evs) c) as [l'| |] eqn:M'; try discriminate. cbn [rbind] in E, E'.
  rewrite (matching_move _ _ _ _ _ M M') in E'. refine (rconcat_move _ _ _ _ l _ out out' E E').
  intros e y y' He. cbv beta. assert (Hin : In e evs) by (apply (matching_in _ _ _ M) in He; tauto).
  destruct (H e Hin) as ((k & Hk) & V & H1 & H2). apply (C129_event_moves F F' e p y y' k h Hk V H1 H2).
Qed.
Print Assumptions C129_occurrences_move.

(** ** pieces *)
Lemma borders_move h F' : forall F x y e l l', day_borders F x y e = Ok l -> day_borders F' (x + h * DAY) (y + h * DAY) (e + h * DAY) = Ok l' ->
  l' = map (fun t => t + h * DAY) l.
Proof.
  induction F' as [|F' IH]; intros [|F] x y e l l' E E'; try discriminate. cbn [day_borders] in E, E'. unfold next_midnight, dt_add in E, E'.
  rewrite date_move in E'. replace (combine (dt_date x + h) 0 + DAY) with (combine (dt_date x) 0 + DAY + h * DAY) in E' by (unfold combine; lia).
  set (m := combine (dt_date x) 0 + DAY) in *. destruct (dt_ok m); [|discriminate]. destruct (dt_ok (m + h * DAY)); [|discriminate]. cbn [rbind] in E, E'.
  replace (e + h * DAY <? m + h * DAY) with (e <? m) in E' by lia. replace (y + h * DAY <? m + h * DAY) with (y <? m) in E' by lia.
  destruct ((e <? m) || (y <? m)); [injection E as <-; injection E' as <-; reflexivity|].
  destruct (day_borders F m y e) as [r| |] eqn:D; try discriminate. destruct (day_borders F' _ _ _) as [r'| |] eqn:D'; try discriminate.
  cbn [rbind] in E, E'. injection E as <-. injection E' as <-. cbn [map]. f_equal. exact (IH F m y e r r' D D').
Qed.

Lemma emit_move h (o : event) p : forall l e out out', emit_segments o p e l = Ok out ->
  emit_segments (move_event h o) (move_period h p) (e + h * DAY) (map (fun t => t + h * DAY) l) = Ok out' -> out' = map (move_occ h) out.
Proof.
  induction l as [|s l IH]; intros e out out' E E'; cbn [emit_segments map] in E, E'; [injection E as <-; injection E' as <-; reflexivity|].
  replace (e + h * DAY - (s + h * DAY)) with (e - s) in E' by lia.
  destruct (in_period s (Some (e - s)) p) as [b| |] eqn:I; try discriminate.
  destruct (in_period (s + h * DAY) (Some (e - s)) (move_period h p)) as [b'| |] eqn:I'; try discriminate.
  rewrite <- (in_period_move _ _ _ _ _ _ I I') in E'. cbn [rbind] in E, E'.
  destruct (emit_segments o p s l) as [r| |] eqn:R; try discriminate. destruct (emit_segments (move_event h o) _ _ _) as [r'| |] eqn:R'; try discriminate.
  cbn [rbind] in E, E'. injection E as <-. injection E' as <-. rewrite (IH _ _ _ R R'). now destruct b.
Qed.

Lemma end_move h t d x x' : end_of t d = Ok x -> end_of (t + h * DAY) d = Ok x' -> x' = x + h * DAY.
Proof.
  unfold end_of, dt_add. destruct d as [d|]; [|discriminate]. destruct (dt_ok (t + d)); [|discriminate]. destruct (dt_ok (t + h * DAY + d)); [|discriminate].
  intros E E'. injection E as <-. injection E' as <-. lia.
Qed.

Lemma segment_move h s e o out out' : segment_one s e o = Ok out ->
  segment_one (s + h * DAY) (e + h * DAY) (move_occ h o) = Ok out' -> out' = map (move_occ h) out.
Proof.
  unfold segment_one. cbn [move_occ o_dtstart o_duration o_original]. replace (o_dtstart o + h * DAY <? s + h * DAY) with (o_dtstart o <? s) by lia.
  destruct (end_of (o_dtstart o) (o_duration o)) as [y| |] eqn:Y; try discriminate.
  destruct (end_of (o_dtstart o + h * DAY) (o_duration o)) as [y'| |] eqn:Y'; try discriminate. rewrite (end_move _ _ _ _ _ Y Y'). cbn [rbind].
  set (x := if o_dtstart o <? s then s else o_dtstart o).
  replace (if o_dtstart o <? s then s + h * DAY else o_dtstart o + h * DAY) with (x + h * DAY) by (unfold x; destruct (o_dtstart o <? s); lia).
  destruct (day_borders _ x y e) as [l| |] eqn:B; try discriminate. destruct (day_borders _ (x + h * DAY) _ _) as [l'| |] eqn:B'; try discriminate.
  rewrite (borders_move _ _ _ _ _ _ _ _ B B'). cbn [rbind].
  replace (if e + h * DAY <? y + h * DAY then e + h * DAY else y + h * DAY) with ((if e <? y then e else y) + h * DAY)
    by (replace (e + h * DAY <? y + h * DAY) with (e <? y) by lia; destruct (e <? y); lia).
  intros E E'. apply (emit_move h (o_original o) (Some s, Some e) _ _ _ _ E).
  cbn [move_period fst snd option_map]. rewrite map_rev. rewrite <- E'. f_equal. f_equal.
  destruct (o_dtstart o <? s); [reflexivity|]. destruct l as [|b l]; cbn [map]; [reflexivity|].
  replace (o_dtstart o + h * DAY =? b + h * DAY) with (o_dtstart o =? b) by lia. now destruct (o_dtstart o =? b).
Qed.

(** what every day shows *)
Theorem C129_days_move : forall F F' evs p c out out' h, movable h evs ->
  get_occurrences_segmented F evs p c = Ok out ->
  get_occurrences_segmented F' (map (move_event h) evs) (move_period h p) c = Ok out' ->
  out' = map (move_occ h) out.
Proof.
  intros F F' evs p c out out' h H. unfold get_occurrences_segmented.
  destruct (get_occurrences F evs p c) as [l| |] eqn:E; try discriminate. destruct (get_occurrences F' _ _ c) as [l'| |] eqn:E'; try discriminate.
  rewrite (C129_occurrences_move _ _ _ _ _ _ _ _ H E E'). cbn [rbind]. destruct p as [[b|] [e|]]; try discriminate. cbn [assert_bounded move_period fst snd option_map rbind].
  unfold segment_occurrences. cbn [fst snd]. intros X X'. refine (rconcat_move _ _ _ _ l _ out out' X X'). intros o y y' _. apply segment_move.
Qed.
Print Assumptions C129_days_move.

(** ** blocked and free periods *)
Lemma blocked_of_move h a b e tb te o out out' : blocked_of a b e tb te o = Ok out ->
  blocked_of a (b + h * DAY) (e + h * DAY) tb te (move_occ h o) = Ok out' -> out' = map (move_pair h) out.
Proof.
  unfold blocked_of. cbn [move_occ o_dtstart o_duration o_original].
  change (blocks a (move_event h (o_original o))) with (blocks a (o_original o)).
  destruct (blocks a (o_original o)) as [[|]| |]; cbn [rbind negb]; try discriminate; [|intros E E'; injection E as <-; injection E' as <-; reflexivity].
  destruct (end_of (o_dtstart o) (o_duration o)) as [y| |] eqn:Y; try discriminate.
  destruct (end_of (o_dtstart o + h * DAY) (o_duration o)) as [y'| |] eqn:Y'; try discriminate. rewrite (end_move _ _ _ _ _ Y Y'). cbn [rbind].
  replace (y + h * DAY <? b + h * DAY) with (y <? b) by lia. destruct (y <? b); [intros E E'; injection E as <-; injection E' as <-; reflexivity|].
  replace (e + h * DAY <=? o_dtstart o + h * DAY) with (e <=? o_dtstart o) by lia. destruct (e <=? o_dtstart o); [intros E E'; injection E as <-; injection E' as <-; reflexivity|].
  rewrite date_move. replace (combine (dt_date (o_dtstart o) + h) tb) with (combine (dt_date (o_dtstart o)) tb + h * DAY) by (unfold combine; lia).
  set (ds := combine (dt_date (o_dtstart o)) tb). replace (o_dtstart o + h * DAY <? ds + h * DAY) with (o_dtstart o <? ds) by lia.
  set (st := if o_dtstart o <? ds then ds else o_dtstart o).
  replace (if o_dtstart o <? ds then ds + h * DAY else o_dtstart o + h * DAY) with (st + h * DAY) by (unfold st; destruct (o_dtstart o <? ds); lia).
  rewrite date_move. replace (combine (dt_date st + h) te) with (combine (dt_date st) te + h * DAY) by (unfold combine; lia).
  set (de := combine (dt_date st) te). replace (de + h * DAY <=? y + h * DAY) with (de <=? y) by lia.
  intros E E'. injection E as <-. injection E' as <-. cbn [map move_pair]. unfold move_pair. cbn [fst snd]. now destruct (de <=? y).
Qed.

Lemma leb_move h a b : pair_leb (move_pair h a) (move_pair h b) = pair_leb a b.
Proof. unfold pair_leb, move_pair. cbn [fst snd]. destruct a, b; cbn [fst snd]. apply Bool.eq_true_iff_eq. lia. Qed.
Lemma insert_move h a l : insert_pair (move_pair h a) (map (move_pair h) l) = map (move_pair h) (insert_pair a l).
Proof. induction l as [|b l IH]; [reflexivity|]. cbn [insert_pair map]. rewrite leb_move. destruct (pair_leb a b); [reflexivity|]. cbn [map]. now rewrite IH. Qed.
Lemma merge_move h l : forall a, merge_from (move_pair h a) (map (move_pair h) l) = map (move_pair h) (merge_from a l).
Proof.
  induction l as [|[s e] l IH]; intros [ls le]; [reflexivity|]. cbn [map merge_from move_pair fst snd]. unfold move_pair at 1 2. cbn [fst snd].
  replace (s + h * DAY <=? le + h * DAY) with (s <=? le) by lia. replace (e + h * DAY <=? le + h * DAY) with (e <=? le) by lia.
  destruct (s <=? le); [destruct (e <=? le)|]; cbn [map]; [exact (IH (ls, le))|exact (IH (ls, e))|]. f_equal. exact (IH (s, e)).
Qed.
Lemma overlaps_move h l : remove_overlaps (map (move_pair h) l) = map (move_pair h) (remove_overlaps l).
Proof.
  unfold remove_overlaps. assert (S : sort_pairs (map (move_pair h) l) = map (move_pair h) (sort_pairs l)).
  { unfold sort_pairs. induction l as [|a l IH]; [reflexivity|]. cbn [map fold_right]. rewrite IH. apply insert_move. }
  rewrite S. destruct (sort_pairs l) as [|x r]; [reflexivity|]. cbn [map]. apply merge_move.
Qed.
Lemma dedup_move h l : dedup_pairs (map (move_pair h) l) = map (move_pair h) (dedup_pairs l).
Proof.
  assert (X : forall a r, existsb (pair_eqb (move_pair h a)) (map (move_pair h) r) = existsb (pair_eqb a) r).
  { intros a r. induction r as [|b r IHr]; [reflexivity|]. cbn [map existsb]. rewrite IHr. f_equal. unfold pair_eqb, move_pair. cbn [fst snd].
    apply Bool.eq_true_iff_eq. rewrite !andb_true_iff, !Z.eqb_eq. lia. }
  induction l as [|a l IH]; [reflexivity|]. cbn [map dedup_pairs]. rewrite IH, X. now destruct (existsb (pair_eqb a) (dedup_pairs l)).
Qed.

Lemma nights_move h tb te : forall n d e out out', night_blocks n tb te d e = Ok out -> night_blocks n tb te (d + h) (e + h) = Ok out' ->
  out' = map (move_pair h) out.
Proof.
  induction n as [|n IH]; intros d e out out' E E'; cbn [night_blocks] in E, E'; [injection E as <-; injection E' as <-; reflexivity|].
  replace (d + h <=? e + h) with (d <=? e) in E' by lia. destruct (d <=? e); [|injection E as <-; injection E' as <-; reflexivity].
  unfold date_add in E, E'. destruct ((1 <=? d + 1) && (d + 1 <=? MAXORD)); [|discriminate]. destruct ((1 <=? d + h + 1) && (d + h + 1 <=? MAXORD)); [|discriminate]. cbn [rbind] in E, E'.
  destruct (night_blocks n tb te (d + 1) e) as [r| |] eqn:R; try discriminate. replace (d + h + 1) with (d + 1 + h) in E' by lia.
  destruct (night_blocks n tb te (d + 1 + h) (e + h)) as [r'| |] eqn:R'; try discriminate. cbn [rbind] in E, E'. injection E as <-. injection E' as <-.
  rewrite (IH _ _ _ _ R R'). cbn [map]. unfold move_pair at 1 2. cbn [fst snd]. unfold combine.
  apply f_equal2; [apply f_equal2; lia|]. apply f_equal2; [unfold move_pair; cbn [fst snd]; apply f_equal2; lia|reflexivity].
Qed.

Theorem C129_blocked_move : forall F F' evs atts begins ends tb te out out' h, movable h evs ->
  get_blocked F evs atts begins ends tb te = Ok out ->
  get_blocked F' (map (move_event h) evs) atts (begins + h * DAY) (ends + h * DAY) tb te = Ok out' ->
  out' = map (move_pair h) out.
Proof.
  intros F F' evs atts begins ends tb te out out' h H. unfold get_blocked. rewrite !date_move, time_move.
  set (f := fun a => rbind (get_occurrences_segmented F evs _ _) _). set (f' := fun a => rbind (get_occurrences_segmented F' _ _ _) _).
  destruct (rconcat_map f atts) as [bl| |] eqn:B; try discriminate. destruct (rconcat_map f' atts) as [bl'| |] eqn:B'; try discriminate. cbn [rbind].
  assert (X : bl' = map (move_pair h) bl).
  { rewrite <- (map_id atts) in B'. refine (rconcat_move f f' (fun a => a) (move_pair h) atts _ bl bl' B B'). intros a y y' _ Y Y'. unfold f in Y. unfold f' in Y'.
    destruct (get_occurrences_segmented F evs _ _) as [o| |] eqn:O; try discriminate.
    destruct (get_occurrences_segmented F' _ _ _) as [o'| |] eqn:O'; try discriminate. cbn [rbind] in Y, Y'.
    rewrite (C129_days_move _ _ _ (Some begins, Some ends) _ _ _ _ H O O') in Y'. refine (rconcat_move _ _ _ _ o _ y y' Y Y'). intros z w w' _. apply blocked_of_move. }
  subst bl'. set (ed := if dt_time ends =? 0 then date_add (dt_date ends) (-1) else Ok (dt_date ends)).
  set (ed' := if dt_time ends =? 0 then date_add (dt_date ends + h) (-1) else Ok (dt_date ends + h)).
  destruct ed as [d| |] eqn:D; try discriminate. destruct ed' as [d'| |] eqn:D'; try discriminate. cbn [rbind].
  assert (Y : d' = d + h).
  { unfold ed in D. unfold ed' in D'. destruct (dt_time ends =? 0); [|injection D as <-; injection D' as <-; reflexivity]. unfold date_add in D, D'.
    destruct ((1 <=? dt_date ends + -1) && _); [|discriminate]. destruct ((1 <=? dt_date ends + h + -1) && _); [|discriminate]. injection D as <-. injection D' as <-. lia. }
  subst d'. replace (night_fuel (dt_date begins + h) (d + h)) with (night_fuel (dt_date begins) d) by (unfold night_fuel; do 2 f_equal; lia).
  destruct (night_blocks _ tb te (dt_date begins) d) as [nb| |] eqn:N; try discriminate.
  destruct (night_blocks _ tb te (dt_date begins + h) (d + h)) as [nb'| |] eqn:N'; try discriminate. cbn [rbind].
  rewrite (nights_move _ _ _ _ _ _ _ _ N N'). intros E E'. injection E as <-. injection E' as <-. now rewrite dedup_move, <- map_app, overlaps_move.
Qed.
Print Assumptions C129_blocked_move.

Lemma free_loop_move h tb m e : forall bl l, free_loop tb m (e + h * DAY) (l + h * DAY) (map (move_pair h) bl) = map (move_pair h) (free_loop tb m e l bl).
Proof.
  induction bl as [|[s x] bl IH]; intros l; cbn [free_loop map move_pair fst snd].
  - replace (l + h * DAY =? e + h * DAY) with (l =? e) by lia. replace (e + h * DAY - (l + h * DAY)) with (e - l) by lia. now destruct (negb (l =? e) && long_enough m (e - l)).
  - unfold move_pair at 1. cbn [fst snd]. rewrite IH, time_move. replace (l + h * DAY =? s + h * DAY) with (l =? s) by lia.
    replace (s + h * DAY - (l + h * DAY)) with (s - l) by lia. rewrite map_app. now destruct (_ && long_enough m (s - l)).
Qed.

Theorem C129_free_move : forall F F' evs atts begins ends tb te m out out' h, movable h evs ->
  get_free F evs atts begins ends tb te m = Ok out ->
  get_free F' (map (move_event h) evs) atts (begins + h * DAY) (ends + h * DAY) tb te m = Ok out' ->
  out' = map (move_pair h) out.
Proof.
  intros F F' evs atts begins ends tb te m out out' h H. unfold get_free.
  destruct (get_blocked F evs atts begins ends tb te) as [bl| |] eqn:B; try discriminate. destruct (get_blocked F' _ _ _ _ _ _) as [bl'| |] eqn:B'; try discriminate.
  rewrite (C129_blocked_move _ _ _ _ _ _ _ _ _ _ _ H B B'). cbn [rbind]. rewrite !date_move. intros E E'. injection E as <-. injection E' as <-.
  rewrite <- free_loop_move. f_equal.
  - replace (combine (dt_date ends + h) te) with (combine (dt_date ends) te + h * DAY) by (unfold combine; lia).
    replace (combine (dt_date ends) te + h * DAY <? ends + h * DAY) with (combine (dt_date ends) te <? ends) by lia. now destruct (combine (dt_date ends) te <? ends).
  - replace (combine (dt_date begins + h) tb) with (combine (dt_date begins) tb + h * DAY) by (unfold combine; lia).
    replace (begins + h * DAY <? combine (dt_date begins) tb + h * DAY) with (begins <? combine (dt_date begins) tb) by lia. now destruct (begins <? combine (dt_date begins) tb).
Qed.
Print Assumptions C129_free_move.

(** ** cases *)
(** a calendar with a weekly and a daily meeting and a single one, moved by three weeks *)
Local Open Scope string_scope.
Example C129_move_ex :
  let t := ymd2ord 2005 1 28 * DAY + 9 * HOUR in
  let evs := [a_meeting "a" t (Some (mkRule KWeekly 1 None None [] [0; 4] "monthday")); a_meeting "b" (t + 3 * DAY + 14 * HOUR + 30 * MINUTE) None;
              a_meeting "c" (t + 2 * HOUR) (Some (mkRule KDaily 2 (Some 3) None [] [] "monthday"))] in
  let b := ymd2ord 2005 1 30 * DAY in let e := ymd2ord 2005 2 2 * DAY in
  movable 21 evs /\ exists occs bl fr,
     get_occurrences_segmented 300 evs (Some b, Some e) None = Ok occs
     /\ get_occurrences_segmented 300 (map (move_event 21) evs) (move_period 21 (Some b, Some e)) None = Ok (map (move_occ 21) occs)
     /\ map (fun o => (e_uid (o_original o), o_dtstart o, o_duration o)) occs
        = [("a", t + 3 * DAY, Some HOUR); ("b", b + 2 * DAY, Some (30 * MINUTE)); ("b", b + 47 * HOUR + 30 * MINUTE, Some (30 * MINUTE)); ("c", b + 11 * HOUR, Some HOUR);
           ("c", b + 2 * DAY + 11 * HOUR, Some HOUR)]
     /\ get_blocked 300 evs [Some "ann"] b e (8 * HOUR) (18 * HOUR) = Ok bl
     /\ get_blocked 300 (map (move_event 21) evs) [Some "ann"] (b + 21 * DAY) (e + 21 * DAY) (8 * HOUR) (18 * HOUR) = Ok (map (move_pair 21) bl)
     /\ get_free 300 evs [Some "ann"] b e (8 * HOUR) (18 * HOUR) None = Ok fr
     /\ get_free 300 (map (move_event 21) evs) [Some "ann"] (b + 21 * DAY) (e + 21 * DAY) (8 * HOUR) (18 * HOUR) None = Ok (map (move_pair 21) fr)
     /\ fr = [(b + 8 * HOUR, b + 11 * HOUR); (b + 12 * HOUR, b + 18 * HOUR); (b + DAY + 8 * HOUR, b + DAY + 9 * HOUR); (b + DAY + 10 * HOUR, b + DAY + 18 * HOUR);
              (b + 2 * DAY + 8 * HOUR, b + 2 * DAY + 11 * HOUR); (b + 2 * DAY + 12 * HOUR, b + 2 * DAY + 18 * HOUR)].
Proof.
  split.
  - intros x X. repeat destruct X as [<- | X]; try destruct X; (split; [|vm_compute; repeat split; discriminate]).
    + exists 3. reflexivity.
    + exists 21. reflexivity.
    + exists 21. reflexivity.
  - eexists. eexists. eexists. split; [vm_compute; reflexivity|]. split; [vm_compute; reflexivity|]. split; [vm_compute; reflexivity|].
    split; [vm_compute; reflexivity|]. split; [vm_compute; reflexivity|]. split; [vm_compute; reflexivity|]. split; vm_compute; reflexivity.
Qed.
