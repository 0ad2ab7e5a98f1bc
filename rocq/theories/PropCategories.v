(** Property theorems C149: reading the categories of a component (cal.py 784, 875-890). *)
From Verif Require Import Base PyDate Recurrent CalTime Event ICal Categories System QueryProofs EventProofs SpecProofs ImportContent PropErrors PropEdge PropAccept PropFault.

(** ** specification *)
(** the names the library finds: those of the one line, those of several lines, or none *)
Definition named (inline : res (list string)) (decoded : res (option (list string))) (c : string) : Prop :=
  (exists l, inline = Ok l /\ In c l) \/ (inline = Raise AttributeError /\ exists l, decoded = Ok (Some l) /\ In c l).

(** the only ways for the categories to be unreadable *)
Definition unreadable_categories (inline : res (list string)) (decoded : res (option (list string))) (x : exn) : Prop :=
  (inline = Raise x /\ x <> KeyError /\ x <> AttributeError) \/ (inline = Raise AttributeError /\ decoded = Raise x).

(** the library answers or raises *)
Definition answers {A} (r : res A) : Prop := r <> OutOfFuel.

Theorem C149_read inline decoded : answers inline -> answers decoded ->
  (forall x, get_categories inline decoded = Raise x <-> unreadable_categories inline decoded x)
  /\ ((forall x, ~ unreadable_categories inline decoded x) ->
      exists l, get_categories inline decoded = Ok l /\ NoDup l /\ forall c, In c l <-> named inline decoded c).
Proof.
  intros A D. unfold get_categories, unreadable_categories, named. destruct inline as [l|x|]; [| |now destruct A].
  - split.
    + intros x. split; [discriminate|]. intros [[X _]|[X _]]; discriminate.
    + intros _. eexists. split; [reflexivity|]. split; [apply NoDup_nodup|]. intros c. rewrite nodup_In. split.
      * intros I. left. eauto.
      * intros [(l' & E & I)|[E _]]; [injection E as <-; exact I|discriminate].
  - destruct decoded as [o|y|]; [| |now destruct D].
    + split.
      * intros z. split.
        -- intros E. destruct x; try discriminate; try (injection E as <-; left; repeat split; discriminate).
           cbn in E. destruct o; discriminate.
        -- intros [(E & N1 & N2)|[_ E]]; [|discriminate]. injection E as <-. destruct x; try reflexivity; congruence.
      * intros N. destruct x; try (exfalso; eapply N; left; repeat split; discriminate).
        -- exists []. split; [reflexivity|]. split; [constructor|]. intros c. split; [intros []|].
           intros [(l & E & _)|[E _]]; discriminate.
        -- destruct o as [l|]; cbn.
           ++ eexists. split; [reflexivity|]. split; [apply NoDup_nodup|]. intros c. rewrite nodup_In. split.
              ** intros I. right. split; [reflexivity|]. eauto.
              ** intros [(l' & E & _)|[_ (l' & E & I)]]; [discriminate|]. injection E as <-. exact I.
           ++ exists []. split; [reflexivity|]. split; [constructor|]. intros c. split; [intros []|].
              intros [(l & E & _)|[_ (l & E & _)]]; discriminate.
    + split.
      * intros z. split.
        -- intros E. destruct x; try discriminate; try (injection E as <-; left; repeat split; discriminate).
           cbn in E. injection E as <-. right. auto.
        -- intros [(E & N1 & N2)|[E1 E]].
           ++ injection E as <-. destruct x; try reflexivity; congruence.
           ++ injection E1 as ->. injection E as ->. reflexivity.
      * intros N. destruct x; try (exfalso; eapply N; left; repeat split; discriminate).
        -- exists []. split; [reflexivity|]. split; [constructor|]. intros c. split; [intros []|].
           intros [(l & E & _)|[E _]]; discriminate.
        -- exfalso. eapply N. right. split; reflexivity.
Qed.
Print Assumptions C149_read.

(** what a component reads as: times and organizer first, then the categories,
    then the rule; otherwise as C52 and C147 say, with the names found *)
Theorem C149_component cf s c v inline decoded : answers inline -> answers decoded ->
  (forall x, import_spec_raw (cf_tz cf) (source_knows s) (main_attendee s c) v inline decoded = Raise x <->
     bad_times (cf_tz cf) v x
     \/ (forall y, ~ bad_times (cf_tz cf) v y) /\
        (bad_organizer s c v x
         \/ (forall y, ~ bad_organizer s c v y) /\
            (unreadable_categories inline decoded x
             \/ (forall y, ~ unreadable_categories inline decoded y) /\ exists rr, v_rrule v = Some rr /\ refused rr x)))
  /\ (forall sp, import_spec_raw (cf_tz cf) (source_knows s) (main_attendee s c) v inline decoded = Ok sp ->
      exists l, NoDup l /\ (forall k, In k l <-> named inline decoded k)
        /\ import_spec (cf_tz cf) (source_knows s) (main_attendee s c) (with_categories v l) = Ok sp
        /\ s_categories sp = l).
Proof.
  intros A D. destruct (C149_read inline decoded A D) as [R O].
  assert (GC : decides (get_categories inline decoded) (unreadable_categories inline decoded)).
  { destruct (get_categories inline decoded) as [l|x|] eqn:G.
    - left. exists l. split; [reflexivity|]. intros y Y. apply R in Y. discriminate.
    - right. exists x. split; [reflexivity|]. intros y. rewrite <- R. split; [now injection 1|now intros ->].
    - exfalso. destruct inline as [l|x|]; [discriminate| |now destruct A]. destruct decoded as [o|y|]; [| |now destruct D];
        destruct x; try discriminate; cbn in G; try destruct o; discriminate. }
  split.
  - assert (W : decides (import_spec_raw (cf_tz cf) (source_knows s) (main_attendee s c) v inline decoded)
       (fun x => bad_times (cf_tz cf) v x
     \/ (forall y, ~ bad_times (cf_tz cf) v y) /\
        (bad_organizer s c v x
         \/ (forall y, ~ bad_organizer s c v y) /\
            (unreadable_categories inline decoded x
             \/ (forall y, ~ unreadable_categories inline decoded y) /\ exists rr, v_rrule v = Some rr /\ refused rr x)))).
    { unfold import_spec_raw. apply decides_bind; [apply times_decides|]. intros [[t1 dd] a1] ET. apply decides_bind; [apply organizer_decides|]. intros o EO.
      apply decides_bind; [exact GC|]. intros l _.
      assert (BT : forall y, ~ bad_times (cf_tz cf) v y).
      { intros y Y. destruct (times_decides (cf_tz cf) v) as [(? & _ & N)|(x & E & _)]; [now apply (N y)|congruence]. }
      assert (BO : forall y, ~ bad_organizer s c v y).
      { intros y Y. destruct (organizer_decides s c v) as [(? & _ & N)|(x & E & _)]; [now apply (N y)|]. rewrite EO in E. discriminate. }
      eapply decides_ext; [apply spec_decides|]. intros x. unfold unreadable.
      change (bad_times (cf_tz cf) (with_categories v l)) with (bad_times (cf_tz cf) v).
      change (bad_organizer s c (with_categories v l)) with (bad_organizer s c v).
      change (v_rrule (with_categories v l)) with (v_rrule v). split.
      - intros [X|[_ [X|[_ X]]]]; [destruct (BT x X)|destruct (BO x X)|exact X].
      - intros X. right. split; [exact BT|]. right. split; [exact BO|exact X]. }
    intros x. destruct W as [(sp & E & N)|(y & E & Q)]; rewrite E.
    + split; [discriminate|]. intros X. destruct (N x X).
    + rewrite Q. split; [now injection 1|now intros ->].
  - intros sp E. unfold import_spec_raw in E. destruct (dtstart_duration (cf_tz cf) v); try discriminate. cbn [rbind] in E.
    match type of E with rbind ?q _ = _ => destruct q; try discriminate end. cbn [rbind] in E.
    destruct (get_categories inline decoded) as [l| |] eqn:G; try discriminate. cbn [rbind] in E.
    destruct O as (l' & E' & ND & I); [intros x X; apply R in X; discriminate|]. injection E' as <-.
    exists l. split; [exact ND|]. split; [exact I|]. split; [exact E|].
    unfold import_spec in E. destruct (dtstart_duration (cf_tz cf) (with_categories v l)) as [[[tt0 td0] ta0]| |]; try discriminate. cbn [rbind] in E.
    match type of E with rbind ?q _ = _ => destruct q; try discriminate end. cbn [rbind] in E.
    match type of E with rbind ?q _ = _ => destruct q; try discriminate end. cbn [rbind] in E. now injection E as <-.
Qed.
Print Assumptions C149_component.

(** a new event made of it is in exactly the categories named *)
Theorem C149_event cf s c v inline decoded sp u e : answers inline -> answers decoded ->
  import_spec_raw (cf_tz cf) (source_knows s) (main_attendee s c) v inline decoded = Ok sp -> new_event u sp = Ok e ->
  forall k, in_category e k = true <-> named inline decoded k.
Proof.
  intros A D E N k. destruct (C149_component cf s c v inline decoded A D) as [_ H]. destruct (H sp E) as (l & _ & I & _ & S).
  rewrite <- I. unfold in_category. replace (e_categories e) with l; [apply str_in_iff|]. rewrite <- S. symmetry.
  unfold new_event in N. pose proof (set_on_object_attrs sp (blank u)) as AT. cbv zeta in AT. unfold mev in AT.
  destruct (set_on_object sp (blank u)) as [[e0 n] r]. cbn [fst] in AT. destruct r; try discriminate.
  assert (C : e_categories e0 = s_categories sp) by (decompose [and] AT; assumption).
  destruct (e_allday e0); injection N as <-; [|exact C].
  pose proof (allday_rest e0) as R. cbv zeta in R. decompose [and] R. congruence.
Qed.
Print Assumptions C149_event.

(** a text that only repeats or reorders the names, or spreads them over several
    lines, is the same change to any event *)
Theorem C149_same cf s c v i1 d1 i2 d2 sp1 sp2 e : answers i1 -> answers d1 -> answers i2 -> answers d2 ->
  (forall k, named i1 d1 k <-> named i2 d2 k) ->
  import_spec_raw (cf_tz cf) (source_knows s) (main_attendee s c) v i1 d1 = Ok sp1 ->
  import_spec_raw (cf_tz cf) (source_knows s) (main_attendee s c) v i2 d2 = Ok sp2 ->
  will_modify sp1 e = will_modify sp2 e.
Proof.
  intros A1 D1 A2 D2 K E1 E2.
  destruct (C149_component cf s c v i1 d1 A1 D1) as [_ H1]. destruct (H1 sp1 E1) as (l1 & _ & I1 & F1 & S1).
  destruct (C149_component cf s c v i2 d2 A2 D2) as [_ H2]. destruct (H2 sp2 E2) as (l2 & _ & I2 & F2 & S2).
  assert (L : forall k, In k l1 <-> In k l2) by (intros k; rewrite I1, I2; apply K).
  clear H1 H2 E1 E2 S1 S2. unfold import_spec in F1, F2.
  change (dtstart_duration (cf_tz cf) (with_categories v l1)) with (dtstart_duration (cf_tz cf) v) in F1.
  change (dtstart_duration (cf_tz cf) (with_categories v l2)) with (dtstart_duration (cf_tz cf) v) in F2.
  destruct (dtstart_duration (cf_tz cf) v) as [[[t d] a]| |]; try discriminate. cbn [rbind] in F1, F2.
  cbn [v_organizer v_rrule v_summary v_description v_location v_status v_attendees v_transp v_class v_attach v_categories with_categories] in F1, F2.
  match type of F1 with rbind ?q _ = _ => destruct q as [o| |]; try discriminate end. cbn [rbind] in F1, F2.
  match type of F1 with rbind ?q _ = _ => destruct q as [r| |]; try discriminate end. cbn [rbind] in F1, F2.
  injection F1 as <-. injection F2 as <-. unfold will_modify. cbn [s_organizer s_attendees].
  match goal with |- context [attrs_differ ?x e] => match goal with |- context [attrs_differ ?y e] => 
    lazymatch y with x => fail | _ => assert (AD : attrs_differ x e = attrs_differ y e) end end end.
  { unfold attrs_differ. cbn [s_dtstart s_duration s_title s_description s_location s_status s_recurrence s_allday s_categories s_transparent s_access s_document].
    replace (set_eqb (e_categories e) l2) with (set_eqb (e_categories e) l1); [reflexivity|].
    apply eq_true_iff_eq. rewrite !set_eqb_iff. split; intros X k; rewrite X; [apply L|symmetry; apply L]. }
  now rewrite AD.
Qed.
Print Assumptions C149_same.

(** one line, several lines, none, and a library that fails otherwise *)
Definition x_meeting : vevent :=
  mkV (Some "u"%string) (Some (IFloat (730000 * DAY))) None (Some DAY) (Some "talk"%string) None None None None [] [] None None None None.
Definition x_one : system := mkSys [] [] [("ann", ("Ann", "INDIVIDUAL"))]%string [[("ann"%string, tt)]].
Definition x_cf : config := mkConfig "s" "h" (fun _ => 0).
Example C149_case :
  (exists sp, import_spec_raw (cf_tz x_cf) (source_knows x_one) (main_attendee x_one 0) x_meeting (Ok ["a"; "b"; "a"]%string) (Raise KeyError) = Ok sp
     /\ s_categories sp = ["b"; "a"]%string /\ exists e, new_event "u" sp = Ok e /\ in_category e "a" = true /\ in_category e "c" = false)
  /\ (exists sp, import_spec_raw (cf_tz x_cf) (source_knows x_one) (main_attendee x_one 0) x_meeting (Raise AttributeError) (Ok (Some ["a"; "b"]%string)) = Ok sp
     /\ s_categories sp = ["a"; "b"]%string)
  /\ (forall k, named (Ok ["a"; "b"; "a"]%string) (Raise KeyError) k <-> named (Raise AttributeError) (Ok (Some ["a"; "b"]%string)) k)
  /\ get_categories (Raise KeyError) (Raise TypeError) = Ok []
  /\ get_categories (Raise AttributeError) (Ok None) = Ok []
  /\ get_categories (Raise AttributeError) (Raise ValueError) = Raise ValueError
  /\ import_spec_raw (cf_tz x_cf) (source_knows x_one) (main_attendee x_one 0) x_meeting (Raise TypeError) (Ok None) = Raise TypeError.
Proof.
  split; [eexists; split; [vm_compute; reflexivity|]; split; [vm_compute; reflexivity|]; eexists; repeat split; vm_compute; reflexivity|].
  split; [eexists; split; vm_compute; reflexivity|].
  split; [|repeat split; vm_compute; reflexivity].
  intros k. unfold named. split.
  - intros [(l & E & I)|[E _]]; [|discriminate]. injection E as <-. right. split; [reflexivity|]. eexists. split; [reflexivity|].
    destruct I as [<-|[<-|[<-|[]]]]; cbn; auto.
  - intros [(l & E & I)|[_ (l & E & I)]]; [discriminate|]. injection E as <-. left. eexists. split; [reflexivity|].
    destruct I as [<-|[<-|[]]]; cbn; auto.
Qed.
