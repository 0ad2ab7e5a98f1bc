(** removeOverlaps: coverage, order, canonicity. *)
From Verif Require Import Base Util.
From Coq Require Import Permutation Sorting.Sorted ZifyBool.

(** [t] lies in one of the half-open periods *)
Definition covers (l : list (Z * Z)) (t : Z) : Prop :=
  exists s e, In (s, e) l /\ s <= t < e.

(** sorted, with a gap between consecutive periods *)
Fixpoint gapped (l : list (Z * Z)) : Prop :=
  match l with
  | [] => True
  | x :: r => match r with [] => True | y :: _ => snd x < fst y end /\ gapped r
  end.

Definition ple (a b : Z * Z) : Prop := fst a < fst b \/ (fst a = fst b /\ snd a <= snd b).

Lemma pair_leb_spec a b : pair_leb a b = true <-> ple a b.
Proof. unfold pair_leb, ple. lia. Qed.

Lemma ple_total a b : pair_leb a b = false -> ple b a.
Proof. unfold pair_leb, ple. lia. Qed.

Lemma ple_trans a b c : ple a b -> ple b c -> ple a c.
Proof. unfold ple. lia. Qed.

Lemma ple_antisym a b : ple a b -> ple b a -> a = b.
Proof. destruct a, b; unfold ple; cbn; intros; f_equal; lia. Qed.

Lemma insert_perm a l : Permutation (insert_pair a l) (a :: l).
Proof.
  induction l as [|b l IH]; cbn; [reflexivity|]. destruct (pair_leb a b); [reflexivity|].
  rewrite IH. apply perm_swap.
Qed.

Lemma sort_perm l : Permutation (sort_pairs l) l.
Proof. induction l as [|a l IH]; cbn; [reflexivity|]. rewrite insert_perm, IH. reflexivity. Qed.

Lemma insert_sorted a l : StronglySorted ple l -> StronglySorted ple (insert_pair a l).
Proof.
  induction 1 as [|b l S IH F]; cbn; [repeat constructor|].
  destruct (pair_leb a b) eqn:E.
  - constructor; [constructor; assumption|]. apply pair_leb_spec in E. constructor; [exact E|].
    rewrite Forall_forall in *. intros x Hx. eapply ple_trans; [exact E|auto].
  - apply ple_total in E. constructor; [exact IH|].
    rewrite Forall_forall in *. intros x Hx. apply (Permutation_in _ (insert_perm a l)) in Hx.
    destruct Hx as [<-|Hx]; auto.
Qed.

Lemma sort_sorted l : StronglySorted ple (sort_pairs l).
Proof. induction l; cbn; [constructor|now apply insert_sorted]. Qed.

Lemma sorted_perm_eq l1 : forall l2, StronglySorted ple l1 -> StronglySorted ple l2 ->
  Permutation l1 l2 -> l1 = l2.
Proof.
  induction l1 as [|a l1 IH]; intros l2 S1 S2 P.
  - apply Permutation_nil in P. now subst.
  - destruct l2 as [|b l2]; [symmetry in P; apply Permutation_nil in P; discriminate|].
    inversion S1 as [|? ? S1' F1]; subst. inversion S2 as [|? ? S2' F2]; subst.
    rewrite Forall_forall in F1, F2.
    assert (a = b).
    { assert (A : In a (b :: l2)) by (eapply Permutation_in; [exact P|now left]).
      assert (B : In b (a :: l1)) by (eapply Permutation_in; [symmetry; exact P|now left]).
      destruct A as [A|A]; [now symmetry|]. destruct B as [B|B]; [assumption|].
      apply ple_antisym; auto. }
    subst b. apply Permutation_cons_inv in P. f_equal. now apply IH.
Qed.

Lemma sort_perm_eq l1 l2 : Permutation l1 l2 -> sort_pairs l1 = sort_pairs l2.
Proof.
  intros P. apply sorted_perm_eq; try apply sort_sorted. rewrite !sort_perm. exact P.
Qed.

Lemma covers_perm l1 l2 t : Permutation l1 l2 -> covers l1 t -> covers l2 t.
Proof.
  intros P (s & e & H & T). exists s, e. split; [|exact T]. eapply Permutation_in; eauto.
Qed.

Lemma covers_cons s e l t : covers ((s, e) :: l) t <-> s <= t < e \/ covers l t.
Proof.
  split.
  - intros (s' & e' & [E|H] & T); [injection E as -> ->; now left|right; exists s', e'; auto].
  - intros [T|(s' & e' & H & T)]; [exists s, e|exists s', e']; split; auto; [now left|now right].
Qed.

Lemma covers_nil t : covers [] t <-> False.
Proof. split; [intros (s & e & [] & _)|tauto]. Qed.

(** the merge loop on a list sorted by start *)
Lemma merge_covers l : forall ls le t, StronglySorted ple l -> Forall (fun x => ls <= fst x) l ->
  (covers (merge_from (ls, le) l) t <-> covers ((ls, le) :: l) t).
Proof.
  induction l as [|[s e] l IH]; intros ls le t S F; cbn [merge_from]; [reflexivity|].
  inversion S as [|? ? S' FS]; subst. inversion F as [|? ? F1 F2]; subst. cbn [fst] in *.
  assert (FS' : Forall (fun x => s <= fst x) l).
  { eapply Forall_impl; [|exact FS]. intros [a b]; unfold ple; cbn; lia. }
  destruct (s <=? le) eqn:E1; [destruct (e <=? le) eqn:E2|].
  - rewrite IH by assumption. rewrite !covers_cons. intuition lia.
  - rewrite IH by assumption. rewrite !covers_cons. intuition lia.
  - rewrite !covers_cons, IH by assumption. rewrite covers_cons. tauto.
Qed.

Lemma remove_overlaps_covers l t : covers (remove_overlaps l) t <-> covers l t.
Proof.
  unfold remove_overlaps. pose proof (sort_perm l) as P. pose proof (sort_sorted l) as S.
  destruct (sort_pairs l) as [|[s e] r] eqn:E.
  - apply Permutation_nil in P. subst. tauto.
  - rewrite merge_covers.
    + split; apply covers_perm; [exact P|now symmetry].
    + now inversion S.
    + inversion S as [|? ? _ F]; subst. eapply Forall_impl; [|exact F]. intros [a b]; unfold ple; cbn; lia.
Qed.

Lemma merge_head l : forall ls le, exists le' r, merge_from (ls, le) l = (ls, le') :: r /\ le <= le'.
Proof.
  induction l as [|[s e] l IH]; intros ls le; cbn [merge_from]; [exists le, []; split; [reflexivity|lia]|].
  destruct (s <=? le); [destruct (e <=? le) eqn:E2|].
  - apply IH.
  - destruct (IH ls e) as (le' & r & -> & L). exists le', r. split; [reflexivity|lia].
  - exists le, (merge_from (s, e) l). split; [reflexivity|lia].
Qed.

Lemma merge_gapped l : forall ls le, gapped (merge_from (ls, le) l).
Proof.
  induction l as [|[s e] l IH]; intros ls le; cbn [merge_from]; [cbn; auto|].
  destruct (s <=? le) eqn:E1; [destruct (e <=? le); apply IH|].
  pose proof (IH s e) as G. destruct (merge_head l s e) as (le' & r & H & _).
  rewrite H in *. cbn [gapped fst snd]. split; [lia|exact G].
Qed.

Lemma remove_overlaps_gapped l : gapped (remove_overlaps l).
Proof.
  unfold remove_overlaps. destruct (sort_pairs l) as [|[s e] r]; [exact I|apply merge_gapped].
Qed.

(** every start and end comes from the input *)
Lemma merge_from_parts l : forall ls le s e, In (s, e) (merge_from (ls, le) l) ->
  (s = ls \/ exists e', In (s, e') l) /\ (e = le \/ exists s', In (s', e) l).
Proof.
  induction l as [|[a b] l IH]; intros ls le s e; cbn [merge_from].
  - intros [H|[]]. injection H as -> ->. auto.
  - destruct (a <=? le); [destruct (b <=? le)|].
    + intros H. apply IH in H. destruct H as [[->|(x & H1)] [->|(y & H2)]]; split;
        try (now left); right; eexists; right; eassumption.
    + intros H. apply IH in H. destruct H as [[->|(x & H1)] [->|(y & H2)]]; split;
        try (now left); right; eexists; try (left; reflexivity); right; eassumption.
    + intros [H|H]; [injection H as -> ->; auto|].
      apply IH in H. destruct H as [[->|(x & H1)] [->|(y & H2)]]; split;
        right; eexists; try (left; reflexivity); right; eassumption.
Qed.

Lemma remove_overlaps_parts l s e : In (s, e) (remove_overlaps l) ->
  (exists e', In (s, e') l) /\ (exists s', In (s', e) l).
Proof.
  unfold remove_overlaps. pose proof (sort_perm l) as P.
  destruct (sort_pairs l) as [|[a b] r] eqn:E; [intros []|]. intros H.
  apply merge_from_parts in H.
  destruct H as [[->|(x & H1)] [->|(y & H2)]]; split; eexists;
    (eapply Permutation_in; [exact P|]); (left; reflexivity) || (right; eassumption).
Qed.

(** well-formedness: enough that every inverted pair is hidden by a proper one *)
Definition wf (x : Z * Z) : Prop := fst x <= snd x.
Definition hidden (l : list (Z * Z)) (x : Z * Z) : Prop :=
  exists a b, In (a, b) l /\ a < fst x <= b.

Lemma merge_wf l : forall ls le, StronglySorted ple l ->
  ls <= le -> (forall x, In x l -> wf x \/ fst x <= le \/ hidden l x) ->
  Forall wf (merge_from (ls, le) l).
Proof.
  induction l as [|[s e] l IH]; intros ls le S L H; cbn [merge_from]; [repeat constructor; exact L|].
  inversion S as [|? ? S' FS]; subst. rewrite Forall_forall in FS.
  assert (KEEP : forall le', le <= le' -> e <= le' -> forall x, In x l -> wf x \/ fst x <= le' \/ hidden l x).
  { intros le' L1 L2 x Hx. destruct (H x (or_intror Hx)) as [W|[W|(a & b & [E|Hab] & W)]]; auto.
    - right; left; lia.
    - injection E as -> ->. right; left. lia.
    - right; right. exists a, b. auto. }
  destruct (s <=? le) eqn:E1; [destruct (e <=? le) eqn:E2|].
  - apply IH; auto. apply KEEP; lia.
  - apply IH; auto; [lia|]. apply KEEP; lia.
  - assert (W : s <= e).
    { destruct (H (s, e) (or_introl eq_refl)) as [W|[W|(a & b & [E|Hab] & W)]]; cbn [wf fst snd] in *.
      - exact W.
      - lia.
      - injection E as -> ->. lia.
      - specialize (FS _ Hab). unfold ple in FS. cbn in FS. lia. }
    constructor; [exact L|]. apply IH; auto.
    intros x Hx. destruct (H x (or_intror Hx)) as [V|[V|(a & b & [E|Hab] & V)]]; auto.
    + assert (s <= fst x) by (specialize (FS _ Hx); unfold ple in FS; cbn in FS; lia). lia.
    + injection E as -> ->. right; left. lia.
    + right; right. exists a, b. auto.
Qed.

Lemma remove_overlaps_wf l : (forall x, In x l -> wf x \/ hidden l x) -> Forall wf (remove_overlaps l).
Proof.
  intros H. unfold remove_overlaps. pose proof (sort_perm l) as P. pose proof (sort_sorted l) as S.
  destruct (sort_pairs l) as [|[s e] r] eqn:E; [constructor|].
  inversion S as [|? ? S' FS]; subst. rewrite Forall_forall in FS.
  assert (Q : forall x, In x ((s, e) :: r) -> wf x \/ hidden ((s, e) :: r) x).
  { intros x Hx. destruct (H x (Permutation_in _ P Hx)) as [W|(a & b & Hab & W)]; [auto|].
    right. exists a, b. split; [|exact W]. eapply Permutation_in; [symmetry; exact P|exact Hab]. }
  assert (W : s <= e).
  { destruct (Q (s, e) (or_introl eq_refl)) as [W|(a & b & [X|Hab] & W)]; cbn in W; [exact W| |].
    - injection X as -> ->. lia.
    - specialize (FS _ Hab). unfold ple in FS; cbn in FS. lia. }
  apply merge_wf; auto.
  intros x Hx. destruct (Q x (or_intror Hx)) as [V|(a & b & [X|Hab] & V)]; auto.
  - injection X as -> ->. right; left; lia.
  - right; right. exists a, b. auto.
Qed.

(** ** canonicity for non-empty periods *)
Definition nonempty (x : Z * Z) : Prop := fst x < snd x.

Lemma merge_nonempty l : forall ls le, ls < le -> Forall nonempty l -> Forall nonempty (merge_from (ls, le) l).
Proof.
  induction l as [|[s e] l IH]; intros ls le L F; cbn [merge_from]; [repeat constructor; exact L|].
  inversion F as [|? ? F1 F2]; subst. unfold nonempty in F1. cbn [fst snd] in F1.
  destruct (s <=? le); [destruct (e <=? le) eqn:E|].
  - now apply IH.
  - apply IH; auto; lia.
  - constructor; [exact L|]. now apply IH.
Qed.

Lemma remove_overlaps_nonempty l : Forall nonempty l -> Forall nonempty (remove_overlaps l).
Proof.
  intros F. unfold remove_overlaps. pose proof (sort_perm l) as P.
  assert (F' : Forall nonempty (sort_pairs l)).
  { rewrite Forall_forall in *. intros x Hx. apply F. eapply Permutation_in; eauto. }
  destruct (sort_pairs l) as [|[s e] r]; [constructor|]. inversion F' as [|? ? H1 H2]; subst.
  apply merge_nonempty; assumption.
Qed.

Lemma gapped_after l : forall s e, gapped ((s, e) :: l) -> Forall nonempty l ->
  forall t, covers l t -> e < t.
Proof.
  induction l as [|[a b] l IH]; intros s e G F t C; [now apply covers_nil in C|].
  cbn [gapped fst snd] in G. destruct G as [G1 G2].
  inversion F as [|? ? F1 F2]; subst. unfold nonempty in F1; cbn in F1.
  apply covers_cons in C as [C|C]; [lia|].
  specialize (IH a b G2 F2 t C). lia.
Qed.

Lemma gapped_tail x l : gapped (x :: l) -> gapped l.
Proof. cbn. tauto. Qed.

Lemma canonical_unique l1 : forall l2, gapped l1 -> gapped l2 -> Forall nonempty l1 -> Forall nonempty l2 ->
  (forall t, covers l1 t <-> covers l2 t) -> l1 = l2.
Proof.
  induction l1 as [|[s e] l1 IH]; intros l2 G1 G2 F1 F2 C.
  - destruct l2 as [|[a b] l2]; [reflexivity|]. exfalso. apply (covers_nil a). apply C.
    inversion F2; subst. unfold nonempty in *; cbn in *. apply covers_cons. left. lia.
  - destruct l2 as [|[a b] l2].
    { exfalso. apply (covers_nil s). apply C. inversion F1; subst. unfold nonempty in *; cbn in *.
      apply covers_cons. left. lia. }
    inversion F1 as [|? ? N1 F1']; subst. inversion F2 as [|? ? N2 F2']; subst.
    unfold nonempty in N1, N2. cbn [fst snd] in N1, N2.
    pose proof (gapped_after _ _ _ G1 F1') as A1. pose proof (gapped_after _ _ _ G2 F2') as A2.
    assert (LO1 : forall t, covers ((s, e) :: l1) t -> s <= t).
    { intros t H. apply covers_cons in H as [H|H]; [lia|]. specialize (A1 t H). lia. }
    assert (LO2 : forall t, covers ((a, b) :: l2) t -> a <= t).
    { intros t H. apply covers_cons in H as [H|H]; [lia|]. specialize (A2 t H). lia. }
    assert (s = a).
    { assert (covers ((a, b) :: l2) s) by (apply C, covers_cons; left; lia).
      assert (covers ((s, e) :: l1) a) by (apply C, covers_cons; left; lia).
      apply LO2 in H. apply LO1 in H0. lia. }
    subst a.
    assert (NE1 : ~ covers ((s, e) :: l1) e).
    { intros H. apply covers_cons in H as [H|H]; [lia|]. specialize (A1 e H). lia. }
    assert (NE2 : ~ covers ((s, b) :: l2) b).
    { intros H. apply covers_cons in H as [H|H]; [lia|]. specialize (A2 b H). lia. }
    assert (e = b).
    { destruct (Z.lt_trichotomy e b) as [L|[L|L]]; [exfalso|exact L|exfalso].
      - apply NE1. apply C. apply covers_cons. left. lia.
      - apply NE2. apply C. apply covers_cons. left. lia. }
    subst b. f_equal. apply IH; auto; [now apply gapped_tail in G1|now apply gapped_tail in G2|].
    intros t. split; intros H.
    + assert (covers ((s, e) :: l2) t) by (apply C, covers_cons; now right).
      apply covers_cons in H0 as [H0|H0]; [|exact H0]. specialize (A1 t H). lia.
    + assert (covers ((s, e) :: l1) t) by (apply C, covers_cons; now right).
      apply covers_cons in H0 as [H0|H0]; [|exact H0]. specialize (A2 t H). lia.
Qed.

Lemma remove_overlaps_canonical l1 l2 : Forall nonempty l1 -> Forall nonempty l2 ->
  (forall t, covers l1 t <-> covers l2 t) -> remove_overlaps l1 = remove_overlaps l2.
Proof.
  intros F1 F2 C. apply canonical_unique; try apply remove_overlaps_gapped;
    try (now apply remove_overlaps_nonempty).
  intros t. now rewrite !remove_overlaps_covers.
Qed.

Lemma remove_overlaps_perm l1 l2 : Permutation l1 l2 -> remove_overlaps l1 = remove_overlaps l2.
Proof. intros P. unfold remove_overlaps. now rewrite (sort_perm_eq l1 l2 P). Qed.

(** a list that already is sorted with gaps and well formed is left alone *)
Lemma merge_gapped_id l : forall x, gapped (x :: l) -> merge_from x l = x :: l.
Proof.
  induction l as [|[s e] l IH]; intros [ls le] G; [reflexivity|].
  cbn [merge_from]. cbn [gapped fst snd] in G. destruct G as [G1 G2].
  replace (s <=? le) with false by lia. f_equal. apply IH. exact G2.
Qed.

Lemma gapped_lower l : forall x, gapped (x :: l) -> Forall wf (x :: l) -> Forall (fun y => snd x < fst y) l.
Proof.
  induction l as [|y l IH]; intros x G W; [constructor|].
  cbn [gapped] in G. destruct G as [G1 G2]. inversion W as [|? ? W1 W2]; subst.
  inversion W2 as [|? ? W3 W4]; subst.
  constructor; [exact G1|]. eapply Forall_impl; [|apply IH; [exact G2|exact W2]].
  intros z Hz. cbn in Hz. unfold wf in *. lia.
Qed.

Lemma gapped_sorted l : gapped l -> Forall wf l -> StronglySorted ple l.
Proof.
  induction l as [|x l IH]; intros G W; [constructor|].
  pose proof (gapped_lower l x G W) as L. inversion W as [|? ? W1 W2]; subst.
  constructor; [apply IH; [now apply gapped_tail in G|exact W2]|].
  eapply Forall_impl; [|exact L]. intros z Hz. cbn in Hz. unfold ple, wf in *. lia.
Qed.

Lemma remove_overlaps_id l : gapped l -> Forall wf l -> remove_overlaps l = l.
Proof.
  intros G W. unfold remove_overlaps.
  rewrite (sorted_perm_eq (sort_pairs l) l); [|apply sort_sorted|now apply gapped_sorted|apply sort_perm].
  destruct l as [|x l]; [reflexivity|]. now apply merge_gapped_id.
Qed.

Lemma remove_overlaps_idem l : (forall x, In x l -> wf x) ->
  remove_overlaps (remove_overlaps l) = remove_overlaps l.
Proof.
  intros H. apply remove_overlaps_id; [apply remove_overlaps_gapped|].
  apply remove_overlaps_wf. intros x Hx. left. now apply H.
Qed.
