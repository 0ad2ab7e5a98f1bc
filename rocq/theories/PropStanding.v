(** Property theorems C138: a meeting that repeats, put into the free time of
    those who attend it (the calls of doc/usecase.txt with an event as in
    doc/recurrence.txt). *)
From Verif Require Import Base PyDate Recurrent CalTime Event Storage ICal System.
From Verif Require Import SpecRecur UtilProofs TimeProofs RecurProofs QueryProofs BlockProofs EventProofs SpecProofs SystemProofs StoreProofs PropEvent PropSystem PropQuery PropRoom PropMeeting PropReschedule.
Local Open Scope Z_scope.

(** ** Specification *)
(** a meeting that takes the time of who attends, once or by a rule the library accepts *)
Definition standing (sp : spec) : Prop :=
  dt_ok (s_dtstart sp) = true
  /\ (exists d, s_duration sp = Some d /\ 0 <= d /\ dt_ok (s_dtstart sp + d) = true)
  /\ (forall r, s_recurrence sp = Some r -> valid_rule r)
  /\ s_allday sp = false /\ s_transparent sp = false /\ s_status sp <> "CANCELED"%string /\ s_attendees sp = [].

(** one of the occurrences of what is specified is from [a] to [b] *)
Definition sitting (sp : spec) (a b : Z) : Prop :=
  exists d, s_duration sp = Some d /\ b = a + d
  /\ match s_recurrence sp with
     | None => a = s_dtstart sp
     | Some r => dt_time a = dt_time (s_dtstart sp) /\ rule_selects r (dt_date (s_dtstart sp)) (dt_date a)
     end.

(** at [t] somebody of these attends something else than object [r] *)
Definition collision (s : system) (r : nat) (who : list string) (t : Z) : Prop :=
  exists u r' j, get_event s u = Ok r' /\ r' <> r /\ In j who /\ takes_time (obj s r') j /\ happens (obj s r') t.

(** ** Proofs *)
Lemma sitting_specified sp t : specified_at sp t <-> exists a b, sitting sp a b /\ a <= t < b.
Proof.
  unfold specified_at, sitting. split.
  - intros (t0 & d & X1 & X2 & X3). exists t0, (t0 + d). split; [exists d; auto|exact X2].
  - intros (a & b & (d & X1 & -> & X3) & X2). exists a, d. auto.
Qed.

Lemma standing_arranged cf s who sp now others s' : reachable cf s -> standing sp ->
  has_event s (generated_id cf now (List.length (sys_store s))) = false ->
  carried_out cf s (arranging (List.length (sys_heap s)) who sp now others) s' ->
  exists e, obj s' (List.length (sys_heap s)) = e
  /\ (forall v, In v (stored s') <-> In v (stored s) \/ v = e)
  /\ (forall u r, get_event s' u = Ok r /\ r <> List.length (sys_heap s) <-> get_event s u = Ok r)
  /\ (forall u r, get_event s u = Ok r -> obj s' r = obj s r)
  /\ (forall t, happens e t <-> specified_at sp t)
  /\ (forall j, takes_time e j <-> In j (who :: others))
  /\ event_ok e /\ event_rule_ok e.
Proof.
  intros RE (S1 & (d & S2 & S3 & S4) & S5 & M7 & M8 & M9 & M10) FR C.
  destruct (arranged cf s who sp now others M7 M10) as (e & C' & SA & D).
  pose proof (carried_out_fun _ _ _ _ _ C C') as S'. destruct (reachable_store _ _ RE) as [ND ST].
  set (u0 := generated_id cf now (List.length (sys_store s))) in *.
  unfold same_attrs in SA. decompose [and] SA. cbn -[In] in *.
  assert (FR' : dget (sys_store s) u0 = None).
  { unfold has_event, get_event in FR. destruct (dget (sys_store s) u0); [discriminate|reflexivity]. }
  assert (OB : forall u r, get_event s u = Ok r -> obj s' r = obj s r).
  { intros u r G. unfold get_event in G. destruct (dget (sys_store s) u) as [r0|] eqn:G0; [|discriminate]. injection G as <-.
    destruct (ST _ _ G0) as (LT & _). subst s'. unfold obj. cbn [sys_heap]. now rewrite app_nth1. }
  assert (GE : forall u r, get_event s' u = Ok r /\ r <> List.length (sys_heap s) <-> get_event s u = Ok r).
  { intros u r. subst s'. unfold get_event. cbn [sys_store]. rewrite dget_dset. destruct (String.eqb_spec u u0) as [->|NE].
    - rewrite FR'. split; [|discriminate]. intros [X Y]. injection X as <-. now destruct Y.
    - split; [now intros [X _]|]. intros X. split; [exact X|]. destruct (dget (sys_store s) u) as [r0|] eqn:G0; [|discriminate].
      injection X as <-. destruct (ST _ _ G0) as (LT & _). lia. }
  assert (L : obj s' (List.length (sys_heap s)) = e) by (subst s'; apply obj_last).
  exists e. split; [exact L|]. split; [|split; [exact GE|split; [exact OB|split; [|split; [|split]]]]].
  - intros v. rewrite !stored_iff; [|exact ND|subst s'; cbn [sys_store]; now apply dset_nodup]. split.
    + intros (u & r & G & ->). destruct (Nat.eq_dec r (List.length (sys_heap s))) as [->|NE]; [right; exact L|].
      left. assert (G' : get_event s u = Ok r) by (apply GE; auto). exists u, r. split; [exact G'|now rewrite (OB u r G')].
    + intros [(u & r & G & ->)| ->].
      * exists u, r. split; [now apply GE|now rewrite (OB u r G)].
      * exists u0, (List.length (sys_heap s)). split; [|now rewrite L]. subst s'. unfold get_event. cbn [sys_store].
        now rewrite dget_dset, String.eqb_refl.
  - intros t. unfold happens, occurs, specified_at. replace (e_recurrence e) with (s_recurrence sp) by congruence.
    replace (e_duration e) with (s_duration sp) by congruence. replace (e_dtstart e) with (s_dtstart sp) by congruence.
    split; intros (t0 & d0 & X); exists t0, d0; tauto.
  - intros j. unfold takes_time, attends. rewrite D, in_str_in. split.
    + intros (_ & _ & st & X & _). destruct (String.eqb j who || str_in j others); [reflexivity|discriminate].
    + intros ->. split; [congruence|]. split; [congruence|]. exists "ACCEPTED"%string. repeat split; discriminate.
  - split; [congruence|]. exists d. split; [congruence|]. split; [exact S3|congruence].
  - unfold event_rule_ok. replace (e_recurrence e) with (s_recurrence sp) by congruence. destruct (s_recurrence sp) as [r|]; [|exact I]. now apply S5.
Qed.

(** * C138 *)
(** Which of the meetings fit: of those the rule gives, an instant is in an
    answered period exactly if it is in the working hours and, once everything is
    arranged, nobody who attends is elsewhere. *)
Theorem C138_fits_iff : forall cf s who sp now others F begins ends tb te l s',
  reachable cf s -> evs_ok (stored s) -> dt_ok begins = true -> dt_ok ends = true -> begins < ends -> 0 <= tb < DAY /\ 0 <= te < DAY ->
  get_free F (stored s) (map Some (who :: others)) begins ends tb te None = Ok l ->
  standing sp -> has_event s (generated_id cf now (List.length (sys_store s))) = false ->
  carried_out cf s (arranging (List.length (sys_heap s)) who sp now others) s' ->
  forall a b t, sitting sp a b -> a <= t < b -> begins <= t < ends ->
  ((exists x y, In (x, y) l /\ x <= t < y)
   <-> tb <= t mod DAY < te /\ ~ collision s' (List.length (sys_heap s)) (who :: others) t).
Proof.
  intros cf s who sp now others F begins ends tb te l s' RE OK OB OE BE W E ST FR C a b t SI AB T.
  destruct (standing_arranged cf s who sp now others s' RE ST FR C) as (e & _ & _ & GE & OBJ & _ & _ & _ & _).
  change (exists x y, In (x, y) l /\ x <= t < y) with (covers l t).
  rewrite (get_free_covers _ _ _ _ _ _ _ _ OK OB OE BE W E t T), outside_mod.
  assert (Q : busy (stored s) (map Some (who :: others)) t <-> collision s' (List.length (sys_heap s)) (who :: others) t).
  { pose proof (proj1 (reachable_store _ _ RE)) as ND. unfold busy, collision. split.
    - intros (i & v & X1 & X2 & X3 & X4). apply (stored_iff _ _ ND) in X2 as (u & r' & G & ->).
      exists u, r', i. destruct (proj2 (GE u r') G) as [G1 G2]. rewrite (OBJ u r' G).
      apply in_map_iff in X1 as (j & J & X1). injection J as <-. auto.
    - intros (u & r' & j & G & NE & X1 & X2 & X3). assert (G' : get_event s u = Ok r') by (apply GE; auto).
      rewrite (OBJ u r' G') in X2, X3. exists j, (obj s r'). split; [now apply in_map|]. split; [|auto].
      apply (stored_iff _ _ ND). eauto. }
  rewrite Q. reflexivity.
Qed.
Print Assumptions C138_fits_iff.

(** So the meetings inside an answered period, of whatever minimal length, do not
    collide with anything. *)
Theorem C138_no_collision : forall cf s who sp now others F atts begins ends tb te m l s',
  reachable cf s -> evs_ok (stored s) -> dt_ok begins = true -> dt_ok ends = true -> begins < ends -> 0 <= tb < DAY /\ 0 <= te < DAY ->
  get_free F (stored s) atts begins ends tb te m = Ok l ->
  (forall j, In j (who :: others) -> In (Some j) atts) ->
  standing sp -> has_event s (generated_id cf now (List.length (sys_store s))) = false ->
  carried_out cf s (arranging (List.length (sys_heap s)) who sp now others) s' ->
  forall a b x y t, sitting sp a b -> In (x, y) l -> x <= a /\ b <= y -> a <= t < b -> begins <= t < ends ->
  tb <= t mod DAY < te /\ ~ collision s' (List.length (sys_heap s)) (who :: others) t.
Proof.
  intros cf s who sp now others F atts begins ends tb te m l s' RE OK OB OE BE W E IN ST FR C a b x y t SI L XY AB T.
  destruct (standing_arranged cf s who sp now others s' RE ST FR C) as (e & _ & _ & GE & OBJ & _ & _ & _ & _).
  destruct (free_none _ _ _ _ _ _ _ _ _ E) as (l0 & E0 & I).
  assert (CV : covers l0 t) by (exists x, y; split; [now apply I|lia]).
  apply (get_free_covers _ _ _ _ _ _ _ _ OK OB OE BE W E0 t T) in CV as [NO NB]. split; [now apply outside_mod|].
  intros (u & r' & j & G & NE & X1 & X2 & X3). apply NB. assert (G' : get_event s u = Ok r') by (apply GE; auto).
  rewrite (OBJ u r' G') in X2, X3. exists j, (obj s r'). split; [now apply IN|]. split; [|auto].
  apply stored_iff; [apply (reachable_store _ _ RE)|eauto].
Qed.
Print Assumptions C138_no_collision.

(** Asked again, for whoever, the free time is what it was less the time of all
    the meetings, if one of those who attend is asked about. *)
Theorem C138_then_taken : forall cf s who sp now others F F' atts begins ends tb te l l' s',
  reachable cf s -> evs_ok (stored s) -> dt_ok begins = true -> dt_ok ends = true -> begins < ends -> 0 <= tb < DAY /\ 0 <= te < DAY ->
  standing sp -> has_event s (generated_id cf now (List.length (sys_store s))) = false ->
  carried_out cf s (arranging (List.length (sys_heap s)) who sp now others) s' ->
  get_free F (stored s) atts begins ends tb te None = Ok l ->
  get_free F' (stored s') atts begins ends tb te None = Ok l' ->
  forall t, begins <= t < ends ->
  ((exists x y, In (x, y) l' /\ x <= t < y) <->
   (exists x y, In (x, y) l /\ x <= t < y)
   /\ ~ ((exists a b, sitting sp a b /\ a <= t < b) /\ exists j, In j (who :: others) /\ In (Some j) atts)).
Proof.
  intros cf s who sp now others F F' atts begins ends tb te l l' s' RE OK OB OE BE W ST FR C E E' t T.
  destruct (standing_arranged cf s who sp now others s' RE ST FR C) as (e & _ & IN & _ & _ & HE & TE & K1 & K2).
  assert (OK' : evs_ok (stored s')) by (intros v V; apply IN in V as [V| ->]; auto).
  change (covers l' t <-> covers l t /\ ~ ((exists a b, sitting sp a b /\ a <= t < b) /\ exists j, In j (who :: others) /\ In (Some j) atts)).
  rewrite (get_free_covers _ _ _ _ _ _ _ _ OK' OB OE BE W E' t T), (get_free_covers _ _ _ _ _ _ _ _ OK OB OE BE W E t T).
  rewrite <- sitting_specified.
  assert (B : busy (stored s') atts t <-> busy (stored s) atts t \/ (specified_at sp t /\ exists j, In j (who :: others) /\ In (Some j) atts)).
  { unfold busy. split.
    - intros (i & v & X1 & X2 & X3 & X4). apply IN in X2 as [X2| ->]; [left; exists i, v; auto|].
      right. split; [now apply HE|]. exists i. split; [now apply TE|exact X1].
    - intros [(i & v & X1 & X2 & X3 & X4)|(X1 & j & X2 & X3)].
      + exists i, v. split; [exact X1|]. split; [apply IN; now left|auto].
      + exists j, e. split; [exact X3|]. split; [apply IN; now right|]. split; [now apply TE|now apply HE]. }
  rewrite B. tauto.
Qed.
Print Assumptions C138_then_taken.

(** ** every day at noon; on the second of three days somebody is busy then *)
Definition noon_rule : rule := mkRule KDaily 1 (Some 3) None [] [] "".
Definition at_noon : spec :=
  mkSpec (p_at 732500 12) (Some HOUR) "" "" "" "CONFIRMED" (Some noon_rule) false [] false "PUBLIC" None None [].
Definition three_days (s : system) : res (list (Z * Z)) :=
  get_free 100 (stored s) [Some "ann"; Some "bob"; Some "cid"]%string (p_at 732500 0) (p_at 732503 0) (9 * HOUR) (17 * HOUR) None.
Definition busy_days : list op := busy_week ++ [OAttendeeCreate "bob" (p_spec (p_at 732501 12) (Some HOUR) false None []) 5]%string.

Example C138_case : let s := run cf0 busy_days in
  let l := arranging 4 "ann" at_noon 3 ["bob"; "cid"]%string in
  reachable cf0 s /\ evs_ok (stored s) /\ List.length (sys_heap s) = 4%nat
  /\ has_event s (generated_id cf0 3 (List.length (sys_store s))) = false
  /\ standing at_noon
  /\ sitting at_noon (p_at 732500 12) (p_at 732500 13) /\ sitting at_noon (p_at 732501 12) (p_at 732501 13)
  /\ three_days s = Ok [(p_at 732500 11, p_at 732500 14); (p_at 732500 15, p_at 732500 17); (p_at 732501 13, p_at 732501 17);
                        (p_at 732502 9, p_at 732502 17)]
  /\ carried_out cf0 s l (afterwards s l)
  /\ collision (afterwards s l) 4 ["ann"; "bob"; "cid"]%string (p_at 732501 12)
  /\ three_days (afterwards s l)
     = Ok [(p_at 732500 11, p_at 732500 12); (p_at 732500 13, p_at 732500 14); (p_at 732500 15, p_at 732500 17); (p_at 732501 13, p_at 732501 17);
           (p_at 732502 9, p_at 732502 12); (p_at 732502 13, p_at 732502 17)].
Proof.
  cbv zeta. split; [apply run_reachable|]. split.
  { assert (Q : forallb (fun e => match e_recurrence e, e_duration e with
        | None, Some d => dt_ok (e_dtstart e) && (0 <=? d) && dt_ok (e_dtstart e + d) | _, _ => false end) (stored (run cf0 busy_days)) = true)
      by (vm_compute; reflexivity).
    intros e H. rewrite forallb_forall in Q. specialize (Q e H). unfold event_ok, event_rule_ok.
    destruct (e_recurrence e) as [r|]; [discriminate|]. destruct (e_duration e) as [d|]; [|discriminate].
    apply andb_prop in Q as [Q Q3]. apply andb_prop in Q as [Q1 Q2]. apply Z.leb_le in Q2.
    split; [|exact I]. split; [exact Q1|]. exists d. auto. }
  split; [vm_compute; reflexivity|]. split; [vm_compute; reflexivity|].
  split.
  { split; [vm_compute; reflexivity|]. split; [exists HOUR; repeat split; vm_compute; try reflexivity; discriminate|].
    split; [|repeat split; try reflexivity; discriminate]. intros r R. injection R as <-. vm_compute. reflexivity. }
  split; [exists HOUR; split; [reflexivity|]; split; [vm_compute; reflexivity|]; split; [vm_compute; reflexivity|]; split; vm_compute; [discriminate|reflexivity]|].
  split; [exists HOUR; split; [reflexivity|]; split; [vm_compute; reflexivity|]; split; [vm_compute; reflexivity|]; split; vm_compute; [discriminate|reflexivity]|].
  split; [vm_compute; reflexivity|]. split.
  { cbn [carried_out arranging map afterwards fold_left].
    repeat (eexists _, _; split; [vm_compute; reflexivity|]). vm_compute. reflexivity. }
  split; [|vm_compute; reflexivity].
  exists (generated_id cf0 5 3), 3%nat, "bob"%string. split; [vm_compute; reflexivity|]. split; [discriminate|]. split; [cbn; auto|]. split.
  - split; [vm_compute; reflexivity|]. split; [vm_compute; discriminate|]. exists "ACCEPTED"%string. split; [vm_compute; reflexivity|]. split; discriminate.
  - exists (p_at 732501 12), HOUR. split; [vm_compute; reflexivity|]. split; [vm_compute; reflexivity|]. vm_compute. split; [discriminate|reflexivity].
Qed.
