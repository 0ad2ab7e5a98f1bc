(** Model of removeOverlaps (src/calcore/util.py 22-50) as a call on a list
    object: the caller's list is sorted in place, the loop runs over indexes
    and appends to a new list.  [Util.remove_overlaps] is its value. *)
From Verif Require Import Base Util.

(** what a call returns: the list it was given (util.py 29-30) or a new one
    (util.py 34 and 50) *)
Inductive returned : Type :=
| SameList
| NewList (l : list (Z * Z)).

(** the loop of util.py 35-47: [i] is the index, [n] the number of rounds left
    in [range(1, len(sequence))] (util.py 35); [start, end] is [sequence[i]]
    (util.py 36), [(ls, le)] is [last_start, last_end], [result] the list
    appended to.
    Simplification: [nth] with a default instead of an index error, which
    cannot happen as [i < len(sequence)]. *)
Fixpoint overlap_loop (sequence : list (Z * Z)) (n i : nat) (ls le : Z) (result : list (Z * Z))
  : Z * Z * list (Z * Z) :=
  match n with
  | O => (ls, le, result)
  | S n =>
      let '(start, end_) := nth i sequence (0, 0) in
      if start <=? le then
        if end_ <=? le then overlap_loop sequence n (S i) ls le result
        else overlap_loop sequence n (S i) ls end_ result
      else overlap_loop sequence n (S i) start end_ (result ++ [(ls, le)])
  end.

(** removeOverlaps, util.py 22-50: the caller's list after the call and what is
    returned; [sort] is what [sequence.sort()] (util.py 31) leaves in the list *)
Definition remove_overlaps_at (sort : list (Z * Z) -> list (Z * Z)) (sequence : list (Z * Z))
  : list (Z * Z) * returned :=
  match sequence with
  | [] => (sequence, SameList)
  | _ :: _ =>
      let sequence := sort sequence in
      let '(ls, le) := nth 0 sequence (0, 0) in
      let '(ls, le, result) := overlap_loop sequence (List.length sequence - 1) 1 ls le [] in
      (sequence, NewList (result ++ [(ls, le)]))
  end.

(** the value a caller sees in what is returned, util.py 30 and 50 *)
Definition returned_value (after : list (Z * Z) * returned) : list (Z * Z) :=
  match snd after with SameList => fst after | NewList l => l end.

(** a caller that appends to what is returned (as with any Python list): its own
    list and the returned one afterwards; no lines in /repo, this is the use
    C119 speaks of *)
Definition append_to_returned (after : list (Z * Z) * returned) (x : Z * Z)
  : list (Z * Z) * list (Z * Z) :=
  match snd after with
  | SameList => (fst after ++ [x], fst after ++ [x])
  | NewList l => (fst after, l ++ [x])
  end.
