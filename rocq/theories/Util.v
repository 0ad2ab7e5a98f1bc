(** Model of src/calcore/util.py. *)
From Verif Require Import Base.

(** [<=] on pairs, used by [sequence.sort()], util.py 31 *)
Definition pair_leb (a b : Z * Z) : bool :=
  (fst a <? fst b) || ((fst a =? fst b) && (snd a <=? snd b)).

(** insertion step of [sequence.sort()], util.py 31 *)
Fixpoint insert_pair (a : Z * Z) (l : list (Z * Z)) : list (Z * Z) :=
  match l with
  | [] => [a]
  | b :: r => if pair_leb a b then a :: l else b :: insert_pair a r
  end.

(** util.py 31: [sequence.sort()], tuples in lexicographic order.
    Simplification: insertion sort; the order is total on pairs of datetimes, so
    every sorting algorithm returns the same list.  The in-place effect on the
    caller's list is modelled in Overlaps.v. *)
Definition sort_pairs (l : list (Z * Z)) : list (Z * Z) := fold_right insert_pair [] l.

(** the loop of util.py 35-49 *)
Fixpoint merge_from (last : Z * Z) (l : list (Z * Z)) : list (Z * Z) :=
  match l with
  | [] => [last]
  | (s, e) :: r =>
      let '(ls, le) := last in
      if s <=? le then
        if e <=? le then merge_from (ls, le) r else merge_from (ls, e) r
      else (ls, le) :: merge_from (s, e) r
  end.

(** removeOverlaps, util.py 22-50 *)
Definition remove_overlaps (l : list (Z * Z)) : list (Z * Z) :=
  match sort_pairs l with
  | [] => []
  | x :: r => merge_from x r
  end.
