(** Exact statements completing partial properties: C51. *)
From Verif Require Import Base PyDate DateFacts Recurrent RecurMisc CalTime TimeProofs Event Storage ICal System
  QueryProofs BlockProofs EventProofs SpecProofs SystemProofs StoreProofs IdProofs ImportProofs PropEvent PropSystem
  ICalProofs ImportContent RuleText SpecText TextProofs PropICal.
From Coq Require Import ZifyBool.
Ltac Zify.zify_post_hook ::= Z.div_mod_to_equations.
Local Opaque ord2ymd year_of month_of day_of ymd2ord days_in_month is_leap.

(** * C51 *)
(** A text is lines without newline, joined by newlines. *)
Definition line (x : string) : Prop := no_char LF x = true.
Definition ends_in_cr (x : string) : Prop := exists y, x = (y ++ String CR "")%string.

Lemma no_lf_find x : no_char LF x = true <-> find_lf x = None.
Proof.
  induction x as [|c x IH]; [now split|]. cbn [no_char find_lf]. destruct (Ascii.eqb c LF); cbn [negb andb]; [easy|].
  rewrite IH. destruct (find_lf x); easy.
Qed.

Lemma concat_head sep c x xs : String.concat sep (String c x :: xs) = String c (String.concat sep (x :: xs)).
Proof. destruct xs; reflexivity. Qed.

Lemma text_is_lines s : exists x xs, s = String.concat nl (x :: xs) /\ Forall line (x :: xs).
Proof.
  induction s as [|c s (x & xs & E & F)]; [exists ""%string, []; split; [reflexivity|constructor; [reflexivity|constructor]]|].
  destruct (Ascii.eqb_spec c LF) as [->|N].
  - exists ""%string, (x :: xs). split; [rewrite E; reflexivity|]. constructor; [reflexivity|exact F].
  - exists (String c x), xs. rewrite concat_head, <- E. split; [reflexivity|]. inversion F; subst. constructor; [|assumption].
    unfold line in *. cbn. destruct (Ascii.eqb_spec c LF); [contradiction|assumption].
Qed.

Lemma crlf_lines xs : Forall line xs -> crlf_of (String.concat nl xs) = String.concat CRLF xs.
Proof.
  induction 1 as [|x xs H F IH]; [reflexivity|]. apply no_lf_find, crlf_of_none in H. cbn [String.concat].
  destruct xs as [|y ys]; [exact H|]. rewrite crlf_of_app, H. f_equal. rewrite crlf_of_app. rewrite IH. reflexivity.
Qed.

(** Every text is such a joining; and what the repair makes of it depends on the
    first line only: it is left alone if there is just one line or if the first
    line is empty or ends in a carriage return; otherwise the same lines are
    joined by CR LF. *)
Theorem C51_repair_exact s : exists x xs, s = String.concat nl (x :: xs) /\ Forall line (x :: xs)
  /\ (xs = [] \/ x = ""%string \/ ends_in_cr x -> repair_text s = s)
  /\ (xs <> [] -> x <> ""%string -> ~ ends_in_cr x -> repair_text s = String.concat CRLF (x :: xs)).
Proof.
  destruct (text_is_lines s) as (x & xs & E & F). exists x, xs. split; [exact E|]. split; [exact F|].
  pose proof (crlf_lines _ F) as C. rewrite <- E in C. assert (H : find_lf x = None) by (inversion F; subst; now apply no_lf_find).
  destruct xs as [|y ys].
  { cbn in E. subst x. unfold repair_text. rewrite H. split; [reflexivity|congruence]. }
  assert (E' : s = (x ++ String LF (String.concat nl (y :: ys)))%string) by exact E. set (b := String.concat nl (y :: ys)) in *.
  pose proof (find_lf_app x b H) as G. rewrite <- E' in G. unfold repair_text. rewrite G.
  destruct (snoc_cases x) as [->|(a & c & ->)]; [split; [reflexivity|congruence]|].
  rewrite length_snoc.
  assert (M : String.get (String.length a) s = Some c) by (rewrite E', app_assoc_s; apply get_mid). rewrite M.
  destruct (Ascii.eqb_spec c CR) as [->|N].
  - split; [reflexivity|]. intros _ _ X. exfalso. apply X. exists a. reflexivity.
  - split; [|intros _ _ _; rewrite join_split; exact C]. intros [X|[X|(z & X)]]; [discriminate|destruct a; discriminate|].
    exfalso. apply N. clear - X. revert z X. induction a as [|q a IH]; intros [|q' z] X; cbn in X; try congruence.
    + destruct z; discriminate.
    + destruct a; discriminate.
    + injection X as _ X. eauto.
Qed.
Print Assumptions C51_repair_exact.

(** all three ways of being left alone, and a text that is repaired *)
Example C51_exact_case : repair_text (T ["A"; String CR nl; "B"; nl; "C"]%string) = T ["A"; String CR nl; "B"; nl; "C"]%string
  /\ repair_text (T [nl; "A"; nl]%string) = T [nl; "A"; nl]%string
  /\ repair_text (T ["A"; nl; "B"; String CR nl; "C"]%string) = T ["A"; CRLF; "B"; String CR CRLF; "C"]%string.
Proof. vm_compute. auto. Qed.
