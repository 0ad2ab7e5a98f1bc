(** Property theorems C15-C18: ISO weeks and merging of periods. *)
From Verif Require Import Base PyDate DateFacts Util IsoWeek UtilProofs IsoProofs.
From Coq Require Import Sorting.Permutation.

(** * C15 ISO week to date *)
(** every day is found from its own ISO year, week and weekday; without a
    weekday the Monday of its week is found *)
Theorem C15_day_of_iso_week : forall o, 1 <= o <= MAXORD ->
  weeknr2date (iso_year o) (iso_week o) (Some (iso_day o)) = Ok o
  /\ weeknr2date (iso_year o) (iso_week o) None = Ok (o - weekday o).
Proof. exact weeknr2date_of_iso. Qed.
Print Assumptions C15_day_of_iso_week.

(** whatever is returned for an existing week has the requested coordinates *)
Theorem C15_iso_week_of_result : forall y w d n o,
  1 <= y <= MAXYEAR -> weeks_in_year y = Ok n -> 1 <= w <= n -> 1 <= d <= 7 ->
  weeknr2date y w (Some d) = Ok o ->
  1 <= o <= MAXORD /\ iso_year o = y /\ iso_week o = w /\ iso_day o = d.
Proof. exact weeknr2date_sound. Qed.
Print Assumptions C15_iso_week_of_result.

Theorem C15_unique : forall a b, 1 <= a -> 1 <= b ->
  iso_year a = iso_year b -> iso_week a = iso_week b -> iso_day a = iso_day b -> a = b.
Proof. exact iso_inj. Qed.
Print Assumptions C15_unique.

(** 2005-01-01 is the Saturday of week 53 of 2004 *)
Example C15_case :
  let o := ymd2ord 2005 1 1 in
  (1 <= o <= MAXORD) /\ iso_year o = 2004 /\ iso_week o = 53 /\ iso_day o = 6
  /\ weeks_in_year 2004 = Ok 53 /\ weeknr2date 2004 53 (Some 6) = Ok o.
Proof. vm_compute. intuition congruence. Qed.

(** * C16 weeks in a year *)
Theorem C16_weeks_in_year : forall y, 1 <= y <= MAXYEAR ->
  exists n, weeks_in_year y = Ok n /\ (n = 52 \/ n = 53)
    /\ (forall o, 1 <= o -> iso_year o = y -> 1 <= iso_week o <= n)
    /\ (forall w d, 1 <= w <= n -> 1 <= d <= 7 ->
          exists o, 1 <= o /\ iso_year o = y /\ iso_week o = w /\ iso_day o = d).
Proof. exact weeks_in_year_last. Qed.
Print Assumptions C16_weeks_in_year.

Theorem C16_week1_distance : forall y, 1 <= y <= MAXYEAR ->
  exists n, weeks_in_year y = Ok n /\ (n = 52 \/ n = 53)
    /\ iso_week1_monday (y + 1) = iso_week1_monday y + 7 * n.
Proof. exact weeks_in_year_eq. Qed.
Print Assumptions C16_week1_distance.

Example C16_case : 1 <= 2004 <= MAXYEAR /\ weeks_in_year 2004 = Ok 53 /\ weeks_in_year 2005 = Ok 52.
Proof. vm_compute. intuition congruence. Qed.

(** * C17 coverage *)
Theorem C17_same_instants : forall l t,
  (exists s e, In (s, e) (remove_overlaps l) /\ s <= t < e) <-> (exists s e, In (s, e) l /\ s <= t < e).
Proof. exact remove_overlaps_covers. Qed.
Print Assumptions C17_same_instants.

Example C17_case : remove_overlaps [(5, 8); (1, 3); (9, 2); (3, 4); (6, 7); (5, 8)] = [(1, 4); (5, 8); (9, 2)].
Proof. reflexivity. Qed.

(** * C18 canonical form *)
Theorem C18_sorted_with_gaps : forall l, gapped (remove_overlaps l).
Proof. exact remove_overlaps_gapped. Qed.
Print Assumptions C18_sorted_with_gaps.

(** well-formed in, well-formed out; a positive gap after every period *)
Theorem C18_well_formed : forall l, (forall x, In x l -> fst x <= snd x) ->
  Forall (fun x => fst x <= snd x) (remove_overlaps l).
Proof. exact (fun l H => remove_overlaps_wf l (fun x Hx => or_introl (H x Hx))). Qed.
Print Assumptions C18_well_formed.

Theorem C18_nonempty : forall l, Forall (fun x => fst x < snd x) l ->
  Forall (fun x => fst x < snd x) (remove_overlaps l).
Proof. exact remove_overlaps_nonempty. Qed.
Print Assumptions C18_nonempty.

Theorem C18_canonical : forall l1 l2,
  Forall (fun x => fst x < snd x) l1 -> Forall (fun x => fst x < snd x) l2 ->
  (forall t, covers l1 t <-> covers l2 t) -> remove_overlaps l1 = remove_overlaps l2.
Proof. exact remove_overlaps_canonical. Qed.
Print Assumptions C18_canonical.

Theorem C18_order_irrelevant : forall l1 l2, Permutation l1 l2 -> remove_overlaps l1 = remove_overlaps l2.
Proof. exact remove_overlaps_perm. Qed.
Print Assumptions C18_order_irrelevant.

Theorem C18_idempotent : forall l, (forall x, In x l -> fst x <= snd x) ->
  remove_overlaps (remove_overlaps l) = remove_overlaps l.
Proof. exact remove_overlaps_idem. Qed.
Print Assumptions C18_idempotent.

Example C18_case :
  let l1 := [(1, 3); (2, 5); (7, 9)] in let l2 := [(7, 8); (8, 9); (1, 5); (7, 8)] in
  Forall (fun x => fst x < snd x) l1 /\ Forall (fun x => fst x < snd x) l2
  /\ remove_overlaps l1 = [(1, 5); (7, 9)] /\ remove_overlaps l2 = [(1, 5); (7, 9)].
Proof. cbn. repeat split; repeat constructor. Qed.
