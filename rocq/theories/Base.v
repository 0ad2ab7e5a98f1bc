(** Results, exceptions and dictionaries shared by the whole model. *)
From Coq Require Export List ZArith Bool Lia String Ascii.
Export ListNotations.
Open Scope Z_scope.

(** Python exceptions that the modelled code can let escape. Raised or let through by cal.py 62-1121 and recurrent.py 61-482; KeyError is caught at cal.py 161. *)
Inductive exn :=
| ValueError | OverflowError | TypeError | KeyError | AssertionError
| AttributeError | ZeroDivisionError | UnboundLocalError | IndexError
| NotImplementedError.

(** Outcome of a Python call: a value, an exception, or "the fuel given to
    some unbounded loop was exhausted" (never a normal-looking value). The outcome of any call, e.g. cal.py 157-162 (caught) or recurrent.py 344-347 (caught). *)
Inductive res (A : Type) :=
| Ok (a : A)
| Raise (e : exn)
| OutOfFuel.
Arguments Ok {A} a.
Arguments Raise {A} e.
Arguments OutOfFuel {A}.

(** sequencing: an exception ends the function, e.g. cal.py 291-297 *)
Definition rbind {A B} (x : res A) (f : A -> res B) : res B :=
  match x with
  | Ok a => f a
  | Raise e => Raise e
  | OutOfFuel => OutOfFuel
  end.

Notation "'let*' x ':=' e 'in' f" := (rbind e (fun x => f))
  (at level 200, x pattern, e at level 100, f at level 200, right associativity).

(** [for x in l: out.extend(f(x))] where [f] may raise. E.g. cal.py 295-296 and 1132-1161. *)
Fixpoint rconcat_map {A B} (f : A -> res (list B)) (l : list A) : res (list B) :=
  match l with
  | [] => Ok []
  | x :: xs => let* y := f x in let* ys := rconcat_map f xs in Ok (y ++ ys)
  end.

(** [[x for x in l if f(x)]] where [f] may raise. E.g. cal.py 289, 306-308 and 466-473. *)
Fixpoint rfilter {A} (f : A -> res bool) (l : list A) : res (list A) :=
  match l with
  | [] => Ok []
  | x :: xs =>
      let* b := f x in
      let* ys := rfilter f xs in
      Ok (if b then x :: ys else ys)
  end.

(** [[f(x) for x in l]] where [f] may raise. E.g. cal.py 970-971 and recurrent.py 284-285. *)
Fixpoint rmap {A B} (f : A -> res B) (l : list A) : res (list B) :=
  match l with
  | [] => Ok []
  | x :: xs => let* y := f x in let* ys := rmap f xs in Ok (y :: ys)
  end.

(** Python dictionaries with string keys: association lists.  The order of the
    list stands for CPython's unspecified iteration order (PropShuffle.v: it does not matter). self._events (cal.py 313), _participation_state and _participation_role (583-587), calendar and source _attendees (667, 1015). *)
Definition dict (V : Type) := list (string * V).

(** [d.get(k)], cal.py 480-485 and 1069; [d[k]] at 285 and 1036 *)
Fixpoint dget {V} (d : dict V) (k : string) : option V :=
  match d with
  | [] => None
  | (k', v) :: r => if String.eqb k k' then Some v else dget r k
  end.

(** [d[k] = v], cal.py 273, 435, 440, 672, 1023, 1030 *)
Fixpoint dset {V} (d : dict V) (k : string) (v : V) : dict V :=
  match d with
  | [] => [(k, v)]
  | (k', v') :: r => if String.eqb k k' then (k, v) :: r else (k', v') :: dset r k v
  end.

(** [del d[k]] on a present key. See cal.py 277, 432, 433, 675. *)
Fixpoint drem {V} (d : dict V) (k : string) : dict V :=
  match d with
  | [] => []
  | (k', v') :: r => if String.eqb k k' then r else (k', v') :: drem r k
  end.

(** [del d[k]]: KeyError when the key is absent. See cal.py 277, 432, 433, 675. *)
Definition ddel {V} (d : dict V) (k : string) : res (dict V) :=
  match dget d k with
  | Some _ => Ok (drem d k)
  | None => Raise KeyError
  end.

(** [d.keys()], cal.py 678 and 970 *)
Definition dkeys {V} (d : dict V) : list string := map fst d.

(** [s in l], cal.py 188-189, 420, 438, 461 *)
Definition str_in (s : string) (l : list string) : bool := existsb (String.eqb s) l.
(** [z in l], recurrent.py 271 *)
Definition z_in (z : Z) (l : list Z) : bool := existsb (Z.eqb z) l.

(** [==] on strings or None, cal.py 115, 372, 377, 423 *)
Definition opt_str_eqb (a b : option string) : bool :=
  match a, b with
  | Some x, Some y => String.eqb x y
  | None, None => true
  | _, _ => false
  end.
