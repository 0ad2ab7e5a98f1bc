(** Several threads calling invite, setParticipationStatus (not for a removal) and
    setParticipationRole of one event at the same time, as in Threads.v: an action is a single
    access to one of the two dictionaries, or the call of notify, and between any two actions
    another thread may run.  Simplifications: all calls are on one event (its two dictionaries
    are all that they share), and subscribers do nothing. *)
From Verif Require Import Base PyDate Recurrent CalTime Event System.

(** the calls, cal.py 413-417, 419-426 and 437-440 *)
Inductive icall :=
| VInvite (l : list attendee)
| VAnswer (a : attendee) (v : string)
| VRole (a : attendee) (ro : string).

(** where a thread is; [k] is the rest of the list inside an invite *)
Inductive ithread :=
| IAt (c : icall)                                                       (* the call *)
| ILook (l : list attendee)                                             (* before the next of the list, cal.py 414-415 *)
| IMiss (i : string) (l : list attendee)                                (* the status was None, cal.py 416 and 422 *)
| ISet (i : string) (old : option string) (v : string) (k : option (list attendee)) (* after the comparison, cal.py 425 *)
| ITell (i : string) (n : notification) (k : option (list attendee))    (* before notify, cal.py 426 *)
| ISeat (i : string) (l : list attendee)                                (* before setParticipationRole, cal.py 417 *)
| IDone (x : res unit).                                                 (* returned or raised *)

(** one action of a thread, cal.py 413-440 *)
Definition istep (e : event) (t : ithread) : event * list notification * ithread :=
  match t with
  | IAt (VInvite l) => (e, [], ILook l)
  | IAt (VAnswer a v) =>
      (e, [], if str_in v statuses then
                match a with
                | Some i => let old := dget (e_state e) i in if opt_str_eqb old (Some v) then IDone (Ok tt) else ISet i old v None
                | None => IDone (Raise AttributeError)
                end
              else IDone (Raise AssertionError))
  | IAt (VRole a ro) =>
      if str_in ro roles then
        match a with
        | Some i => (with_role e (dset (e_role e) i ro), [], IDone (Ok tt))
        | None => (e, [], IDone (Raise AttributeError))
        end
      else (e, [], IDone (Raise AssertionError))
  | ILook [] => (e, [], IDone (Ok tt))
  | ILook (None :: _) => (e, [], IDone (Raise AttributeError))
  | ILook (Some i :: l) => (e, [], match dget (e_state e) i with None => IMiss i l | Some _ => ILook l end)
  | IMiss i l =>
      let old := dget (e_state e) i in
      (e, [], if opt_str_eqb old (Some "NEEDS-ACTION"%string) then ISeat i l else ISet i old "NEEDS-ACTION" (Some l))
  | ISet i old v k => (with_state e (dset (e_state e) i v), [], ITell i (NParticipation (e_uid e) i old (Some v)) k)
  | ITell i n k => (e, [n], match k with None => IDone (Ok tt) | Some l => ISeat i l end)
  | ISeat i l => (with_role e (dset (e_role e) i "REQ-PARTICIPANT"%string), [], ILook l)
  | IDone x => (e, [], IDone x)
  end.

(** the event, who announced what so far, and the threads *)
Definition irunning := (event * list (nat * notification) * list ithread)%type.

(** thread [j] does its next action, cal.py 413-440 *)
Definition igo (w : irunning) (j : nat) : irunning :=
  let '(e, out, ts) := w in
  match nth_error ts j with
  | Some t => let '(e', n, t') := istep e t in (e', out ++ map (pair j) n, replace_nth j ts t')
  | None => w
  end.
Definition iturns (w : irunning) (sched : list nat) : irunning := fold_left igo sched w.
(** all calls begin, cal.py 413, 419 and 437 *)
Definition istart (e : event) (cs : list icall) : irunning := (e, [], map IAt cs).
(** the same call by itself, cal.py 413-440 *)
Definition icall_alone (e : event) (c : icall) : mut :=
  match c with VInvite l => invite e l | VAnswer a v => set_status e a (Some v) | VRole a ro => set_role e a ro end.
