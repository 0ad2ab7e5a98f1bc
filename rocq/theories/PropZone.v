(** Property theorems C137: times given in other time zones. *)
From Verif Require Import Base PyDate DateFacts Recurrent CalTime TimeProofs Event Storage ICal System
  QueryProofs BlockProofs EventProofs SpecProofs SystemProofs StoreProofs IdProofs ImportProofs PropEvent PropSystem
  ICalProofs ImportContent PropICal.
From Coq Require Import ZifyBool.
Ltac Zify.zify_post_hook ::= Z.div_mod_to_equations.
Local Opaque ord2ymd year_of month_of day_of ymd2ord days_in_month is_leap.

(** two ways to write the same moment: the same value, or wall-clock times of
    two zones with the same distance from their zones' offsets *)
Definition same_moment (a b : ical_time) : Prop :=
  a = b \/ exists y off y' off', a = IAware y off /\ b = IAware y' off' /\ y - off = y' - off'.

Definition same_moments (a b : option ical_time) : Prop :=
  match a, b with
  | Some x, Some y => same_moment x y
  | None, None => True
  | _, _ => False
  end.

(** the same component but for the zones its times are written in *)
Definition same_but_zones (v w : vevent) : Prop :=
  same_moments (v_dtstart v) (v_dtstart w) /\ same_moments (v_dtend v) (v_dtend w)
  /\ w = mkV (v_uid v) (v_dtstart w) (v_dtend w) (v_duration v) (v_summary v) (v_description v) (v_location v)
             (v_status v) (v_organizer v) (v_attendees v) (v_categories v) (v_transp v) (v_class v) (v_attach v) (v_rrule v).

Lemma same_float tz a b : same_moment a b -> float_time tz a = float_time tz b.
Proof.
  intros [->|(y & off & y' & off' & -> & -> & E)]; [reflexivity|]. cbn [float_time float_datetime].
  replace (y + - off) with (y' + - off') by lia. unfold dt_add. replace (y + - off) with (y' + - off') by lia. reflexivity.
Qed.

Lemma same_is_date a b : same_moment a b -> is_date a = is_date b.
Proof. intros [->|(y & off & y' & off' & -> & -> & _)]; reflexivity. Qed.

Lemma same_spec tz known default v w : same_but_zones v w -> import_spec tz known default v = import_spec tz known default w.
Proof.
  intros (S & E & W). rewrite W. unfold import_spec. cbn.
  assert (D : dtstart_duration tz v = dtstart_duration tz w).
  { rewrite W. unfold dtstart_duration. cbn. destruct (v_dtstart v) as [a|], (v_dtstart w) as [b|]; try contradiction; [|reflexivity].
    cbn [same_moments] in S. rewrite (same_float tz a b S). destruct (float_time tz b); [|reflexivity|reflexivity]. cbn [rbind].
    assert (X : match a with IDate _ => true | _ => false end = match b with IDate _ => true | _ => false end) by exact (same_is_date a b S).
    rewrite X. destruct (v_dtend v) as [a'|], (v_dtend w) as [b'|]; try contradiction; [|reflexivity]. cbn [same_moments] in E.
    now rewrite (same_float tz a' b' E). }
  rewrite W in D. now rewrite D.
Qed.

Lemma same_one cf s c known v w : same_but_zones v w -> import_one cf s c known v = import_one cf s c known w.
Proof.
  intros S. assert (U : v_uid v = v_uid w) by (destruct S as (_ & _ & W); rewrite W; reflexivity).
  unfold import_one. rewrite U. destruct (v_uid w) as [u|]; [|reflexivity].
  assert (A : import_existing cf s c u v = import_existing cf s c u w).
  { unfold import_existing. destruct (get_event s u) as [r| |]; [|reflexivity|reflexivity]. cbn [slift sbind].
    now rewrite (same_spec _ _ _ v w S). }
  assert (B : import_new cf s c u v = import_new cf s c u w) by (unfold import_new; now rewrite (same_spec _ _ _ v w S)).
  now rewrite A, B.
Qed.

Lemma same_loop cf c known vs ws : Forall2 same_but_zones vs ws ->
  forall s, import_loop cf s c known vs = import_loop cf s c known ws.
Proof.
  induction 1 as [|v w vs ws S _ IH]; intros s; [reflexivity|]. cbn [import_loop]. rewrite (same_one cf s c known v w S).
  destruct (import_one cf s c known w) as [[s1 n1] [u| |]]; [|reflexivity|reflexivity]. cbn [sbind]. now rewrite IH.
Qed.

(** how a moment is written does not matter: the same state, the same
    notifications, the same outcome *)
Theorem C137_same_moment cf s c vs ws p cr sync : Forall2 same_but_zones vs ws ->
  step cf s (OImport c (Ok (Some vs)) p cr sync) = step cf s (OImport c (Ok (Some ws)) p cr sync).
Proof.
  intros H. cbn [step]. unfold import_cal. destruct (cal_events s c p cr) as [evs| |]; [|reflexivity|reflexivity].
  cbn [slift sbind]. now rewrite (same_loop cf c _ vs ws H s).
Qed.
Print Assumptions C137_same_moment.

(** the stored event, new or known before: it starts at the local time of the
    moment, and its length is the time between the two moments plus what the
    local clock is put forward in between *)
Theorem C137_length cf s c vs p cr sync s' n v u y off y' off' : reachable cf s -> NoDup (import_uids vs) ->
  step cf s (OImport c (Ok (Some vs)) p cr sync) = (s', n, Ok tt) -> In v vs -> v_uid v = Some u ->
  has_event s u = false \/ visible s c p cr u ->
  v_dtstart v = Some (IAware y off) -> v_dtend v = Some (IAware y' off') ->
  let local m := m + cf_tz cf m in
  exists r, get_event s' u = Ok r /\ e_dtstart (obj s' r) = local (y - off)
    /\ e_duration (obj s' r) = Some (local (y' - off') - local (y - off)).
Proof.
  intros R N E I U K S D local.
  assert (X : exists r t d, get_event s' u = Ok r /\ e_dtstart (obj s' r) = t /\ e_duration (obj s' r) = Some d
                            /\ says_times (cf_tz cf) v t d false).
  { destruct K as [K|K].
    - destruct (C48_new cf s c vs p cr sync s' n v u R N E I U K) as (r & t & d & ad & G & T & A & B & L & _).
      assert (AD : ad = false). { destruct T as (t0 & T0 & _ & -> & _). rewrite S in T0. injection T0 as <-. reflexivity. }
      exists r, t, d. split; [exact G|]. split; [exact B|]. split; [exact (L AD)|]. rewrite <- AD. exact T.
    - destruct (C48_existing cf s c vs p cr sync s' n v u R N E I U K) as (r & d & G & L & T).
      exists r, (e_dtstart (obj s' r)), d. split; [exact G|]. split; [reflexivity|]. split; [exact L|].
      destruct T as (t0 & T0 & T1 & T2 & T3). exists t0. split; [exact T0|]. split; [exact T1|]. split; [|exact T3].
      rewrite S in T0. injection T0 as <-. reflexivity. }
  destruct X as (r & t & d & G & A & L & (t0 & T0 & T1 & _ & T3)). exists r. split; [exact G|].
  rewrite S in T0. injection T0 as <-. rewrite D in T3. cbn [local_time] in T1, T3.
  destruct T1 as (_ & _ & T1), T3 as (_ & _ & T3). unfold local. rewrite A, L. split; [lia|]. f_equal. lia.
Qed.
Print Assumptions C137_length.

(** so lengths are kept exactly if the clock is not put forward or back between *)
Theorem C137_kept_iff cf s c vs p cr sync s' n v u y off y' off' r : reachable cf s -> NoDup (import_uids vs) ->
  step cf s (OImport c (Ok (Some vs)) p cr sync) = (s', n, Ok tt) -> In v vs -> v_uid v = Some u ->
  has_event s u = false \/ visible s c p cr u ->
  v_dtstart v = Some (IAware y off) -> v_dtend v = Some (IAware y' off') -> get_event s' u = Ok r ->
  (e_duration (obj s' r) = Some ((y' - off') - (y - off)) <-> cf_tz cf (y' - off') = cf_tz cf (y - off)).
Proof.
  intros R N E I U K S D G. destruct (C137_length cf s c vs p cr sync s' n v u y off y' off' R N E I U K S D) as (q & G' & _ & L).
  assert (q = r) by congruence. subst q. rewrite L. split; [intros X; injection X; lia|intros X; f_equal; lia].
Qed.
Print Assumptions C137_kept_iff.

(** and two such events are in the same order, and overlap, exactly as their
    moments do, wherever the local clock is the same for all four moments *)
Theorem C137_overlap cf s c vs p cr sync s' n v u y off y' off' v2 u2 y2 off2 y2' off2' k : reachable cf s -> NoDup (import_uids vs) ->
  step cf s (OImport c (Ok (Some vs)) p cr sync) = (s', n, Ok tt) ->
  In v vs -> v_uid v = Some u -> has_event s u = false \/ visible s c p cr u ->
  v_dtstart v = Some (IAware y off) -> v_dtend v = Some (IAware y' off') ->
  In v2 vs -> v_uid v2 = Some u2 -> has_event s u2 = false \/ visible s c p cr u2 ->
  v_dtstart v2 = Some (IAware y2 off2) -> v_dtend v2 = Some (IAware y2' off2') ->
  (forall m, In m [y - off; y' - off'; y2 - off2; y2' - off2'] -> cf_tz cf m = k) ->
  exists r d r2 d2, get_event s' u = Ok r /\ get_event s' u2 = Ok r2
    /\ e_duration (obj s' r) = Some d /\ e_duration (obj s' r2) = Some d2
    /\ (e_dtstart (obj s' r) < e_dtstart (obj s' r2) <-> y - off < y2 - off2)
    /\ ((exists x, e_dtstart (obj s' r) <= x < e_dtstart (obj s' r) + d /\ e_dtstart (obj s' r2) <= x < e_dtstart (obj s' r2) + d2)
        <-> exists m, y - off <= m < y' - off' /\ y2 - off2 <= m < y2' - off2').
Proof.
  intros R N E I U K S D I2 U2 K2 S2 D2 TZ.
  destruct (C137_length cf s c vs p cr sync s' n v u y off y' off' R N E I U K S D) as (r & G & B & L).
  destruct (C137_length cf s c vs p cr sync s' n v2 u2 y2 off2 y2' off2' R N E I2 U2 K2 S2 D2) as (r2 & G2 & B2 & L2).
  rewrite (TZ (y - off)), (TZ (y' - off')) in * by (cbn; auto). rewrite (TZ (y2 - off2)), (TZ (y2' - off2')) in * by (cbn; auto).
  eexists. eexists. eexists. eexists. split; [exact G|]. split; [exact G2|]. split; [exact L|]. split; [exact L2|]. rewrite B, B2.
  split; [lia|]. split; [intros (x & X); exists (x - k); lia|intros (m & M); exists (m + k); lia].
Qed.
Print Assumptions C137_overlap.

(** floating times and dates do not depend on the local zone at all *)
Definition zoneless (t : option ical_time) : Prop := match t with Some (IAware _ _) => False | _ => True end.

Theorem C137_floating cf s c vs p cr sync tz : (forall v, In v vs -> zoneless (v_dtstart v) /\ zoneless (v_dtend v)) ->
  step (mkConfig (cf_storage_id cf) (cf_host cf) tz) s (OImport c (Ok (Some vs)) p cr sync) = step cf s (OImport c (Ok (Some vs)) p cr sync).
Proof.
  intros H. cbn [step]. unfold import_cal. destruct (cal_events s c p cr) as [evs| |]; [|reflexivity|reflexivity]. cbn [slift sbind].
  enough (X : forall s, import_loop (mkConfig (cf_storage_id cf) (cf_host cf) tz) s c (nodup string_dec (map e_uid evs)) vs
                        = import_loop cf s c (nodup string_dec (map e_uid evs)) vs) by now rewrite X.
  assert (F : forall t, zoneless (Some t) -> float_time tz t = float_time (cf_tz cf) t) by (intros [?|?|? ?] Z; [reflexivity|reflexivity|destruct Z]).
  assert (SP : forall v known df, In v vs -> import_spec tz known df v = import_spec (cf_tz cf) known df v).
  { intros v known df Hv. destruct (H v Hv) as [A B]. unfold import_spec.
    assert (D : dtstart_duration tz v = dtstart_duration (cf_tz cf) v); [|now rewrite D].
    unfold dtstart_duration. destruct (v_dtstart v) as [t|]; [|reflexivity]. rewrite (F t A). destruct (float_time (cf_tz cf) t); [|reflexivity|reflexivity].
    cbn [rbind]. destruct (v_dtend v) as [t'|]; [|reflexivity]. now rewrite (F t' B). }
  clear H. induction vs as [|v vs IH]; intros s0; [reflexivity|]. cbn [import_loop].
  assert (O : import_one (mkConfig (cf_storage_id cf) (cf_host cf) tz) s0 c (nodup string_dec (map e_uid evs)) v
              = import_one cf s0 c (nodup string_dec (map e_uid evs)) v).
  { unfold import_one. destruct (v_uid v) as [u|]; [|reflexivity].
    assert (A : import_existing (mkConfig (cf_storage_id cf) (cf_host cf) tz) s0 c u v = import_existing cf s0 c u v).
    { unfold import_existing. destruct (get_event s0 u) as [r| |]; [|reflexivity|reflexivity]. cbn [slift sbind cf_tz]. now rewrite SP by now left. }
    assert (B : import_new (mkConfig (cf_storage_id cf) (cf_host cf) tz) s0 c u v = import_new cf s0 c u v).
    { unfold import_new. cbn [cf_tz]. now rewrite SP by now left. }
    now rewrite A, B. }
  rewrite O. destruct (import_one cf s0 c _ v) as [[s1 n1] [u| |]]; [|reflexivity|reflexivity]. cbn [sbind].
  now rewrite IH by (intros; apply SP; now right).
Qed.
Print Assumptions C137_floating.

(** Refuted where clocks are put back: half an hour across the change becomes an
    event that ends half an hour before it starts, and its organizer counts as
    free all day. *)
Definition autumn : config := mkConfig "store" "example.com" (fun m => if m <? p_at 732613 1 then 2 * HOUR else HOUR).
Definition x_late : vevent :=
  (mkV (Some "late") (Some (IAware (732613 * DAY + 45 * MINUTE) 0)) (Some (IAware (732613 * DAY + 75 * MINUTE) 0)) None
      (Some "Late") None None (Some "CONFIRMED") None [] [] None None None None)%string.
Definition x_clock : system := run autumn
  [OAttendee "ann" "Ann" "INDIVIDUAL"; OCalendar; OAddAttendee 0 ann; OImport 0 (Ok (Some [x_late])) (None, None) None false]%string.

Theorem C137_negative_refuted : reachable autumn x_clock /\ exists r, get_event x_clock "late" = Ok r
  /\ e_dtstart (obj x_clock r) = 732613 * DAY + 165 * MINUTE /\ e_duration (obj x_clock r) = Some (- 30 * MINUTE)
  /\ get_status (obj x_clock r) ann = Ok (Some "ACCEPTED"%string)
  /\ exists l, get_free 10 (stored x_clock) [ann] (p_at 732613 0) (p_at 732614 0) 0 (p_at 0 23) None = Ok l
     /\ forall t, p_at 732613 0 <= t < p_at 732613 23 -> exists s e, In (s, e) l /\ s <= t < e.
Proof.
  split; [apply run_reachable|]. eexists. split; [vm_compute; reflexivity|]. do 3 (split; [vm_compute; reflexivity|]).
  exists [(p_at 732613 0, 732613 * DAY + 165 * MINUTE); (732613 * DAY + 135 * MINUTE, p_at 732613 23)].
  split; [vm_compute; reflexivity|]. unfold p_at, DAY, HOUR, MINUTE. intros t T.
  destruct (Z_lt_dec t (732613 * 86400000000 + 165 * 60000000)) as [L|L].
  - eexists. eexists. split; [left; reflexivity|]. lia.
  - eexists. eexists. split; [right; left; reflexivity|]. lia.
Qed.
Print Assumptions C137_negative_refuted.

(** the same half hour written in Berlin and in Tokyo time, an hour before the change *)
Definition x_zoned (uid : string) (m len off : Z) : vevent :=
  (mkV (Some uid) (Some (IAware (m + off) off)) (Some (IAware (m + len + off) off)) None
      (Some "Call") None None (Some "CONFIRMED") None [] [] None None None None)%string.

Example C137_case :
  let m := 732612 * DAY + 1425 * MINUTE in
  let s := run autumn [OAttendee "ann" "Ann" "INDIVIDUAL"; OCalendar; OAddAttendee 0 ann]%string in
  let vs := [x_zoned "a" m (30 * MINUTE) (2 * HOUR); x_zoned "b" (m + 15 * MINUTE) (30 * MINUTE) 0]%string in
  let ws := [x_zoned "a" m (30 * MINUTE) (9 * HOUR); x_zoned "b" (m + 15 * MINUTE) (30 * MINUTE) (- 5 * HOUR)]%string in
  let s' := sst (step autumn s (OImport 0 (Ok (Some vs)) (None, None) None false)) in
  Forall2 same_but_zones vs ws /\ vs <> ws
  /\ reachable autumn s /\ NoDup (import_uids vs) /\ has_event s "a" = false /\ has_event s "b" = false
  /\ srs (step autumn s (OImport 0 (Ok (Some vs)) (None, None) None false)) = Ok tt
  /\ map e_dtstart (stored s') = [m + 2 * HOUR; m + 2 * HOUR + 15 * MINUTE]
  /\ map e_duration (stored s') = [Some (30 * MINUTE); Some (30 * MINUTE)]
  /\ (forall x, In x [m; m + 30 * MINUTE; m + 15 * MINUTE; m + 15 * MINUTE + 30 * MINUTE] -> cf_tz autumn x = 2 * HOUR).
Proof.
  intros m s vs ws s'. split.
  { assert (X : forall u a l o o', same_but_zones (x_zoned u a l o) (x_zoned u a l o')).
    { intros. split; [|split; [|reflexivity]]; right; do 4 eexists; (split; [reflexivity|]); (split; [reflexivity|]); lia. }
    constructor; [apply X|]. constructor; [apply X|constructor]. }
  split; [intros H; discriminate H|]. split; [apply run_reachable|].
  split; [cbn; constructor; [intros [X|[]]; discriminate X|]; constructor; [intros []|constructor]|].
  do 5 (split; [vm_compute; reflexivity|]).
  intros x [<-|[<-|[<-|[<-|[]]]]]; vm_compute; reflexivity.
Qed.
