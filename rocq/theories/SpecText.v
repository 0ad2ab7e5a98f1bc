(** Specification: a reader for the RRULE and EXDATE lines of RFC 2445,
    written from the standard's grammar and independent of the code that prints
    them. *)
From Verif Require Import Base PyDate.
From Coq Require Import DecimalString Decimal.

(** split a text at every occurrence of a character *)
Fixpoint split_on (c : ascii) (s : string) : list string :=
  match s with
  | EmptyString => [EmptyString]
  | String x r =>
      if Ascii.eqb x c then EmptyString :: split_on c r
      else match split_on c r with
           | y :: ys => String x y :: ys
           | [] => []
           end
  end.

(** what follows a given prefix *)
Fixpoint strip (p s : string) : option string :=
  match p, s with
  | EmptyString, _ => Some s
  | String a p', String b s' => if Ascii.eqb a b then strip p' s' else None
  | _, _ => None
  end.

(** the value of the part [NAME=value] *)
Fixpoint part (name : string) (parts : list string) : option string :=
  match parts with
  | [] => None
  | p :: r => match strip (name ++ "=") p with Some v => Some v | None => part name r end
  end.

Definition read_int (s : string) : option Z :=
  match NilZero.int_of_string s with Some i => Some (Z.of_int i) | None => None end.

(** the first [n] characters and the rest *)
Fixpoint cut (n : nat) (s : string) : option (string * string) :=
  match n with
  | O => Some (EmptyString, s)
  | S n' => match s with
            | EmptyString => None
            | String c r => match cut n' r with Some (a, b) => Some (String c a, b) | None => None end
            end
  end.

Definition obind {A B} (o : option A) (f : A -> option B) : option B :=
  match o with Some a => f a | None => None end.

Fixpoint omap {A B} (f : A -> option B) (l : list A) : option (list B) :=
  match l with
  | [] => Some []
  | x :: r => obind (f x) (fun y => obind (omap f r) (fun ys => Some (y :: ys)))
  end.

Definition digit (c : ascii) : option Z :=
  let n := Z.of_nat (nat_of_ascii c) in if (48 <=? n) && (n <=? 57) then Some (n - 48) else None.

Fixpoint read_digits (acc : Z) (s : string) : option Z :=
  match s with
  | EmptyString => Some acc
  | String c r => obind (digit c) (fun d => read_digits (10 * acc + d) r)
  end.

(** [n] digits *)
Definition read_num (n : nat) (s : string) : option (Z * string) :=
  obind (cut n s) (fun '(a, b) => obind (read_digits 0 a) (fun v => Some (v, b))).

(** YYYYMMDD *)
Definition read_date_rest (s : string) : option (Z * string) :=
  obind (read_num 4 s) (fun '(y, s) =>
  obind (read_num 2 s) (fun '(m, s) =>
  obind (read_num 2 s) (fun '(d, s) => Some (ymd2ord y m d, s)))).
Definition read_date (s : string) : option Z :=
  obind (read_date_rest s) (fun '(o, s) => match s with EmptyString => Some o | _ => None end).

(** YYYYMMDDTHHMMSS: the day and the second of the day *)
Definition read_datetime (s : string) : option (Z * Z) :=
  obind (read_date_rest s) (fun '(o, s) =>
  obind (strip "T" s) (fun s =>
  obind (read_num 2 s) (fun '(h, s) =>
  obind (read_num 2 s) (fun '(m, s) =>
  obind (read_num 2 s) (fun '(x, s) =>
    match s with EmptyString => Some (o, 3600 * h + 60 * m + x) | _ => None end))))).

(** a weekday with an optional position: MO, 2TU, -1FR; Monday is 0 *)
Definition read_weekday (s : string) : option Z :=
  if String.eqb s "MO" then Some 0 else if String.eqb s "TU" then Some 1
  else if String.eqb s "WE" then Some 2 else if String.eqb s "TH" then Some 3
  else if String.eqb s "FR" then Some 4 else if String.eqb s "SA" then Some 5
  else if String.eqb s "SU" then Some 6 else None.
Definition read_byday (s : string) : option (option Z * Z) :=
  obind (cut (String.length s - 2) s) (fun '(n, d) =>
  obind (read_weekday d) (fun w =>
  match n with
  | EmptyString => Some (None, w)
  | _ => obind (read_int n) (fun k => Some (Some k, w))
  end)).

(** a part that may be absent *)
Definition optional {A} (f : string -> option A) (o : option string) : option (option A) :=
  match o with None => Some None | Some s => obind (f s) (fun x => Some (Some x)) end.

Record read_rule := mkRead {
  rd_freq : string;
  rd_interval : option Z;
  rd_count : option Z;
  rd_until : option (Z * Z);
  rd_byday : option (list (option Z * Z));
  rd_bymonthday : option Z;
  rd_exdates : option (list Z) }.

Definition read_lines (lines : list string) : option read_rule :=
  match lines with
  | [] => None
  | l :: rest =>
      obind (strip "RRULE:" l) (fun l =>
      let parts := split_on ";" l in
      obind (part "FREQ" parts) (fun freq =>
      obind (optional read_int (part "INTERVAL" parts)) (fun i =>
      obind (optional read_int (part "COUNT" parts)) (fun c =>
      obind (optional read_datetime (part "UNTIL" parts)) (fun u =>
      obind (optional (fun s => omap read_byday (split_on "," s)) (part "BYDAY" parts)) (fun b =>
      obind (optional read_int (part "BYMONTHDAY" parts)) (fun m =>
      obind (match rest with
             | [] => Some None
             | [x] => obind (strip "EXDATE;VALUE=DATE:" x) (fun s =>
                      obind (omap read_date (split_on "," s)) (fun l => Some (Some l)))
             | _ => None
             end) (fun x => Some (mkRead freq i c u b m x)))))))))
  end.
