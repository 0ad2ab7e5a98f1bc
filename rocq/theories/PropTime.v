(** Property theorems C19, C23-C25, C56: periods, segments, rounding. *)
From Verif Require Import Base PyDate CalTime TimeProofs.

(** noon, n days after 2024-01-01 *)
Definition noon (n : Z) : Z := (738886 + n) * DAY + 12 * HOUR.
Definition midnight (n : Z) : Z := (738886 + n) * DAY.

(** * C19 *)
Theorem C19_half_open_overlap : forall s d p, 0 < d -> dt_ok (s + d) = true -> period_nonempty p ->
  (in_period s (Some d) p = Ok true <->
   exists t, s <= t < s + d
     /\ match fst p with Some b => b <= t | None => True end
     /\ match snd p with Some e => t < e | None => True end).
Proof. exact in_period_overlap. Qed.
Print Assumptions C19_half_open_overlap.

(** the question is always answered *)
Theorem C19_total : forall s d p, dt_ok (s + d) = true -> exists b, in_period s (Some d) p = Ok b.
Proof. exact in_period_total. Qed.
Print Assumptions C19_total.

(** instantaneous objects: both bounds are exclusive *)
Theorem C19_instant : forall s p, dt_ok s = true ->
  in_period s (Some 0) p = Ok (match fst p with Some b => b <? s | None => true end
                               && match snd p with Some e => s <? e | None => true end).
Proof. exact in_period_instant. Qed.
Print Assumptions C19_instant.

Example C19_case :
  0 < HOUR /\ dt_ok (noon 0 + HOUR) = true /\ period_nonempty (Some (noon 0 + 30 * MINUTE), None)
  /\ in_period (noon 0) (Some HOUR) (Some (noon 0 + 30 * MINUTE), None) = Ok true
  /\ in_period (noon 0) (Some HOUR) (Some (noon 0 + HOUR), None) = Ok false
  /\ in_period (noon 0) (Some HOUR) (None, Some (noon 0)) = Ok false.
Proof. vm_compute. intuition congruence. Qed.

(** * C23 *)
(** for each event, the covered instants are those of its occurrences inside the period *)
Theorem C23_same_instants : forall (A : Type) b e (occs : list (occurrence A)) out,
  dt_ok e = true -> durations_ok occs -> segment_occurrences (b, e) occs = Ok out ->
  forall (x : A) t,
    (exists o, In o out /\ o_original o = x /\ occ_covers o t) <->
    (b <= t < e /\ exists o, In o occs /\ o_original o = x /\ occ_covers o t).
Proof. exact @segments_coverage. Qed.
Print Assumptions C23_same_instants.

(** the segments of one occurrence do not overlap each other *)
Theorem C23_each_instant_once : forall (A : Type) b e (occ : occurrence A) out d,
  dt_ok e = true -> o_duration occ = Some d -> 0 <= d ->
  segment_occurrences (b, e) [occ] = Ok out ->
  ForallOrdPairs (fun o1 o2 => forall t, ~ (occ_covers o1 t /\ occ_covers o2 t)) out.
Proof. exact @segments_once. Qed.
Print Assumptions C23_each_instant_once.

(** a list is segmented occurrence by occurrence *)
Theorem C23_one_by_one : forall (A : Type) b e (o : occurrence A) occs out,
  segment_occurrences (b, e) (o :: occs) = Ok out ->
  exists s1 s2, segment_occurrences (b, e) [o] = Ok s1
    /\ segment_occurrences (b, e) occs = Ok s2 /\ out = s1 ++ s2.
Proof.
  exact (fun A b e o occs out E => match segments_cons b e o occs out E with
    | ex_intro _ s1 (ex_intro _ s2 (conj H1 (conj H2 H3))) =>
        ex_intro _ s1 (ex_intro _ s2 (conj
          (segments_one b e o s1 H1) (conj H2 H3))) end).
Qed.
Print Assumptions C23_one_by_one.

(** segmentation succeeds away from the last representable day *)
Theorem C23_total : forall (A : Type) b e (occs : list (occurrence A)),
  dt_ok b = true -> dt_ok e = true -> b < MAXORD * DAY -> e < MAXORD * DAY ->
  (forall o, In o occs -> dt_ok (o_dtstart o) = true /\ o_dtstart o < MAXORD * DAY /\
     exists d, o_duration o = Some d /\ dt_ok (o_dtstart o + d) = true) ->
  exists out, segment_occurrences (b, e) occs = Ok out.
Proof. exact @segments_total. Qed.
Print Assumptions C23_total.

Example C23_case :
  let occ := mkOcc (noon 0) (Some (2 * DAY)) 7%nat in
  durations_ok [occ]
  /\ segment_occurrences (midnight 0 + 18 * HOUR, midnight 5) [occ]
     = Ok [mkOcc (midnight 2) (Some (12 * HOUR)) 7%nat; mkOcc (midnight 1) (Some DAY) 7%nat;
           mkOcc (midnight 0 + 18 * HOUR) (Some (6 * HOUR)) 7%nat].
Proof.
  split; [|vm_compute; reflexivity].
  intros o [<-|[]]. exists (2 * DAY). split; [reflexivity|]. vm_compute. discriminate.
Qed.

(** * C24 *)
Theorem C24_within_day_and_period : forall (A : Type) b e (occs : list (occurrence A)) out,
  dt_ok e = true -> durations_ok occs -> segment_occurrences (b, e) occs = Ok out ->
  forall o, In o out -> exists occ d d', In occ occs /\ o_original o = o_original occ
    /\ o_duration occ = Some d /\ o_duration o = Some d' /\ 0 <= d'
    /\ b <= o_dtstart o /\ o_dtstart o + d' <= e
    /\ o_dtstart occ <= o_dtstart o /\ o_dtstart o + d' <= o_dtstart occ + d
    /\ exists D, D * DAY <= o_dtstart o /\ o_dtstart o + d' <= (D + 1) * DAY.
Proof. exact @segments_within. Qed.
Print Assumptions C24_within_day_and_period.

Example C24_case :
  let occs := [mkOcc (noon 0) (Some (2 * DAY)) 7%nat; mkOcc (noon 3) (Some 0) 8%nat] in
  durations_ok occs
  /\ segment_occurrences (midnight 1, midnight 5) occs
     = Ok [mkOcc (midnight 2) (Some (12 * HOUR)) 7%nat; mkOcc (midnight 1) (Some DAY) 7%nat;
           mkOcc (noon 3) (Some 0) 8%nat].
Proof.
  split; [|vm_compute; reflexivity].
  intros o [<-|[<-|[]]]; eexists; (split; [reflexivity|]); vm_compute; discriminate.
Qed.

(** * C25 *)
(** Partial: an occurrence may end at a midnight, but not at one strictly inside
    the period.  Missing: those occurrences, for which the claim is false. *)
Theorem C25_no_empty_segment_partial : forall (A : Type) b e (occs : list (occurrence A)) out,
  dt_ok e = true -> (forall o, In o occs -> exists d, o_duration o = Some d /\ 0 < d
     /\ (dt_time (o_dtstart o + d) = 0 -> ~ (b < o_dtstart o + d < e))) ->
  segment_occurrences (b, e) occs = Ok out ->
  forall o, In o out -> exists d, o_duration o = Some d /\ 0 < d.
Proof. exact @segments_nonempty. Qed.
Print Assumptions C25_no_empty_segment_partial.

Example C25_case :
  let occ := mkOcc (noon 0) (Some (DAY + 12 * HOUR)) 7%nat in
  (exists d, o_duration occ = Some d /\ 0 < d
     /\ (dt_time (o_dtstart occ + d) = 0 -> ~ (midnight 0 < o_dtstart occ + d < midnight 2)))
  /\ segment_occurrences (midnight 0, midnight 2) [occ]
     = Ok [mkOcc (midnight 1) (Some DAY) 7%nat; mkOcc (noon 0) (Some (12 * HOUR)) 7%nat].
Proof.
  split; [|vm_compute; reflexivity]. exists (DAY + 12 * HOUR). vm_compute. intuition congruence.
Qed.

(** an all-day event of one day, seen over a week, yields an empty piece on the next day *)
Theorem C25_no_empty_segment_refuted : exists (b e : Z) (occ : occurrence nat) out o,
  dt_ok b = true /\ dt_ok e = true /\ b < e /\ o_duration occ = Some DAY
  /\ segment_occurrences (b, e) [occ] = Ok out /\ In o out /\ o_duration o = Some 0.
Proof.
  exists (midnight 0), (midnight 7), (mkOcc (midnight 2) (Some DAY) 7%nat),
    [mkOcc (midnight 3) (Some 0) 7%nat; mkOcc (midnight 2) (Some DAY) 7%nat],
    (mkOcc (midnight 3) (Some 0) 7%nat).
  vm_compute. intuition congruence.
Qed.
Print Assumptions C25_no_empty_segment_refuted.

(** * C56 *)
Theorem C56_round_up_to_days : forall td, exists k,
  roundtimedelta td = k * DAY /\ td <= k * DAY /\ forall j, td <= j * DAY -> k <= j.
Proof. exact round_ceil. Qed.
Print Assumptions C56_round_up_to_days.

Example C56_case : roundtimedelta (DAY + 1) = 2 * DAY /\ roundtimedelta (- HOUR) = 0
  /\ roundtimedelta (3 * DAY) = 3 * DAY.
Proof. vm_compute. auto. Qed.
