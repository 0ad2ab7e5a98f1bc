(** Property theorems C119: removeOverlaps and the caller's list. *)
From Verif Require Import Base Util UtilProofs Overlaps.
From Coq Require Import Sorting.Permutation Sorting.Sorted.

(** ** Specification *)
(** a sorting method: it reorders, and what it leaves is in the order of tuples
    (first by start, then by end) *)
Definition in_tuple_order (l : list (Z * Z)) : Prop :=
  forall i j, (i < j < List.length l)%nat ->
    let a := nth i l (0, 0) in let b := nth j l (0, 0) in
    fst a < fst b \/ (fst a = fst b /\ snd a <= snd b).

Definition sorts (sort : list (Z * Z) -> list (Z * Z)) : Prop :=
  forall l, Permutation (sort l) l /\ in_tuple_order (sort l).

(** ** Proofs *)
Lemma order_sorted l : in_tuple_order l -> StronglySorted ple l.
Proof.
  induction l as [|a l IH]; intros O; constructor.
  - apply IH. intros i j H. specialize (O (S i) (S j)). cbn in O. apply O. cbn. lia.
  - apply Forall_forall. intros b B. apply In_nth with (d := (0, 0)) in B as (j & J & <-).
    specialize (O 0%nat (S j)). cbn in O. apply O. lia.
Qed.

Lemma sorted_order l : StronglySorted ple l -> in_tuple_order l.
Proof.
  induction 1 as [|a l S IH F]; intros i j H.
  - cbn in H. lia.
  - destruct j as [|j]; [lia|]. destruct i as [|i]; cbn in *.
    + rewrite Forall_forall in F. apply (F (nth j l (0, 0))). apply nth_In. lia.
    + apply IH. lia.
Qed.

Lemma sorts_unique sort l : sorts sort -> sort l = sort_pairs l.
Proof.
  intros S. destruct (S l) as [P O]. apply sorted_perm_eq.
  - now apply order_sorted.
  - apply sort_sorted.
  - rewrite P. symmetry. apply sort_perm.
Qed.

Lemma loop_merge r : forall q ls le result,
  (let '(a, b, res) := overlap_loop (q ++ r) (List.length r) (List.length q) ls le result in res ++ [(a, b)])
  = result ++ merge_from (ls, le) r.
Proof.
  induction r as [|[s e] r IH]; intros q ls le result; cbn [overlap_loop List.length merge_from]; [reflexivity|].
  rewrite app_nth2, Nat.sub_diag by lia. cbn [nth].
  assert (E : forall A B R, (let '(a, b, res) := overlap_loop (q ++ (s, e) :: r) (List.length r) (S (List.length q)) A B R in res ++ [(a, b)])
              = R ++ merge_from (A, B) r).
  { intros A B R. specialize (IH (q ++ [(s, e)]) A B R). rewrite <- app_assoc in IH. cbn [app] in IH.
    rewrite app_length in IH. cbn [List.length] in IH. replace (List.length q + 1)%nat with (S (List.length q)) in IH by lia. exact IH. }
  destruct (s <=? le); [destruct (e <=? le)|]; rewrite E; try reflexivity.
  rewrite <- app_assoc. reflexivity.
Qed.

Lemma remove_overlaps_at_eq sort l : sorts sort ->
  remove_overlaps_at sort l
  = match l with [] => ([], SameList) | _ => (sort_pairs l, NewList (remove_overlaps l)) end.
Proof.
  intros S. unfold remove_overlaps_at. rewrite (sorts_unique sort l S). destruct l as [|x l]; [reflexivity|].
  unfold remove_overlaps. destruct (sort_pairs (x :: l)) as [|[ls le] r] eqn:E.
  - pose proof (sort_perm (x :: l)) as P. rewrite E in P. apply Permutation_nil_cons in P. destruct P.
  - cbn [nth List.length]. rewrite Nat.sub_succ, Nat.sub_0_r.
    pose proof (loop_merge r [(ls, le)] ls le []) as L. cbn [app List.length] in L.
    destruct (overlap_loop ((ls, le) :: r) (List.length r) 1 ls le []) as [[a b] res].
    rewrite L. reflexivity.
Qed.

(** * C119 *)
(** whatever the sorting method: the value returned is that of the functional
    model (so C17 and C18 hold of it) *)
Theorem C119_value : forall sort l, sorts sort ->
  returned_value (remove_overlaps_at sort l) = remove_overlaps l.
Proof.
  intros sort l S. rewrite remove_overlaps_at_eq by exact S. destruct l; reflexivity.
Qed.
Print Assumptions C119_value.

(** the caller's list is left with the same periods, in order; a list that was in
    order is left as it was, and no other *)
Theorem C119_callers_list : forall sort l, sorts sort ->
  let after := fst (remove_overlaps_at sort l) in
  Permutation after l /\ in_tuple_order after /\ (after = l <-> in_tuple_order l).
Proof.
  intros sort l S after.
  assert (E : after = sort_pairs l).
  { unfold after. rewrite remove_overlaps_at_eq by exact S. destruct l; reflexivity. }
  rewrite E. split; [apply sort_perm|]. split; [apply sorted_order, sort_sorted|]. split.
  - intros <-. apply sorted_order, sort_sorted.
  - intros O. apply sorted_perm_eq; [apply sort_sorted|now apply order_sorted|apply sort_perm].
Qed.
Print Assumptions C119_callers_list.

(** a second call on the same list changes nothing more and returns the same *)
Theorem C119_again : forall sort l, sorts sort ->
  let after := fst (remove_overlaps_at sort l) in
  remove_overlaps_at sort after = remove_overlaps_at sort l.
Proof.
  intros sort l S after. unfold after. rewrite (remove_overlaps_at_eq sort l S).
  destruct l as [|x l]; [reflexivity|]. cbn [fst]. rewrite remove_overlaps_at_eq by exact S.
  pose proof (sort_perm (x :: l)) as P.
  destruct (sort_pairs (x :: l)) as [|y r] eqn:E; [apply Permutation_nil_cons in P; destruct P|].
  rewrite <- E. f_equal; [|f_equal].
  - rewrite <- E in P. now apply sort_perm_eq.
  - apply remove_overlaps_perm. rewrite E. exact P.
Qed.
Print Assumptions C119_again.

(** the returned list is the caller's own exactly when that was empty: only then
    does appending to the returned list change the caller's *)
Theorem C119_sharing : forall sort l x, sorts sort ->
  let after := remove_overlaps_at sort l in
  snd (append_to_returned after x) = remove_overlaps l ++ [x]
  /\ (fst (append_to_returned after x) = fst after <-> l <> []).
Proof.
  intros sort l x S after. unfold after. rewrite remove_overlaps_at_eq by exact S.
  destruct l as [|y l]; cbn.
  - split; [reflexivity|]. split; [discriminate|congruence].
  - split; [reflexivity|]. split; [discriminate|reflexivity].
Qed.
Print Assumptions C119_sharing.

(** hypotheses met: insertion sort is a sorting method *)
Example C119_ex : sorts sort_pairs
  /\ remove_overlaps_at sort_pairs [(5, 8); (1, 3); (3, 4); (6, 7); (9, 2)]
     = ([(1, 3); (3, 4); (5, 8); (6, 7); (9, 2)], NewList [(1, 4); (5, 8); (9, 2)])
  /\ remove_overlaps_at sort_pairs [] = ([], SameList)
  /\ append_to_returned (remove_overlaps_at sort_pairs []) (1, 2) = ([(1, 2)], [(1, 2)]).
Proof.
  split; [|repeat split; reflexivity].
  intros l. split; [apply sort_perm|apply sorted_order, sort_sorted].
Qed.
