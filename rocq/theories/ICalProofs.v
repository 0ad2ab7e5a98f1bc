(** Export, import and line endings. *)
From Verif Require Import Base PyDate DateFacts Recurrent RecurMisc CalTime TimeProofs Event Storage ICal System
  QueryProofs EventProofs SpecProofs SystemProofs IdProofs ImportProofs.
From Coq Require Import ZifyBool.
Ltac Zify.zify_post_hook ::= Z.div_mod_to_equations.
Local Opaque ord2ymd year_of month_of day_of ymd2ord days_in_month is_leap.

(** ** an event that survives export and import *)
Definition rule_exportable (r : rule) : Prop :=
  r_exceptions r = []
  /\ match r_kind r with
     | KDaily | KYearly => True
     | KWeekly => r_weekdays r = []
     | KMonthly => r_monthly r = "monthday"%string
     | KBasic | KNo => False
     end
  /\ match r_until r with Some (VDatetime t) => t mod SECOND = 0 | _ => True end.

Definition times_exportable (e : event) (d : Z) : Prop :=
  e_duration e = Some d /\ dt_ok (e_dtstart e + d) = true
  /\ if e_allday e then e_dtstart e mod DAY = 0 /\ d mod DAY = 0
     else e_dtstart e mod SECOND = 0 /\ d mod SECOND = 0.

Definition exportable (main : string) (e : event) : Prop :=
  (exists d, times_exportable e d)
  /\ (forall r, e_recurrence e = Some r -> rule_exportable r)
  /\ e_document e <> Some ""%string
  /\ e_organizer e = Some main /\ dget (e_state e) main = Some "ACCEPTED"%string
  /\ dget (e_role e) main = Some "REQ-PARTICIPANT"%string.

Lemma rule_round r : rule_exportable r ->
  exists r', import_rule (wire_rule (export_rule r)) = Ok r' /\ rule_eq r r' = true.
Proof.
  intros (E & K & U). exists (mkRule (r_kind r) (r_interval r) (r_count r) (r_until r) [] [] "monthday"). split.
  - unfold import_rule, wire_rule, export_rule, base_rule, opt_head. cbn [rr_freq rr_interval rr_count rr_until rr_byday].
    assert (W : match r_until r with Some u => Some (wire_until u) | None => None end = r_until r).
    { destruct (r_until r) as [[u|t|]|]; try reflexivity. cbn. unfold to_second. repeat f_equal.
      unfold SECOND in *. lia. }
    destruct (r_kind r); try contradiction; cbn; (destruct (r_count r); cbn; destruct (r_until r); cbn in *; rewrite ?W; reflexivity).
  - apply rule_eq_tuple. unfold tuple_for_comparison. cbn. rewrite E. destruct (r_kind r); try contradiction; rewrite ?K; reflexivity.
Qed.

Lemma truthy_dflt s : dflt (truthy s) ""%string = s.
Proof. now destruct s. Qed.

Lemma event_round tz known main e : exportable main e -> exists v sp, export_event false e = Ok v
  /\ v_uid v = Some (e_uid e)
  /\ import_spec tz known (Ok (Some main)) (wire v) = Ok sp /\ will_modify sp e = Ok false.
Proof.
  intros ((d & D & OK & T) & R & DOC & O1 & O2 & O3).
  unfold export_event. rewrite D. cbn [end_of]. unfold dt_add. rewrite OK. cbn [rbind].
  assert (RR : exists rec, match e_recurrence e with
      | Some r => let* r := import_rule (wire_rule (export_rule r)) in Ok (Some r) | None => Ok None end = Ok rec
      /\ opt_rule_eqb (e_recurrence e) rec = true).
  { destruct (e_recurrence e) as [r|]; [|exists None; split; reflexivity].
    destruct (rule_round r (R r eq_refl)) as (r' & E1 & E2). rewrite E1. exists (Some r'). split; [reflexivity|exact E2]. }
  destruct RR as (rec & RR1 & RR2).
  assert (TT : exists s, match e_allday e with
      | true => IDate (dt_date (e_dtstart e)) | false => IFloat (to_second (e_dtstart e)) end = s
      /\ float_time tz s = Ok (e_dtstart e)).
  { eexists. split; [reflexivity|]. destruct (e_allday e); cbn; f_equal.
    - unfold combine, dt_date, DAY in *. lia.
    - unfold to_second, SECOND in *. lia. }
  assert (TE : match e_allday e with
      | true => combine (dt_date (e_dtstart e + d)) 0 | false => to_second (e_dtstart e + d) end = e_dtstart e + d).
  { destruct (e_allday e); [unfold combine, dt_date, DAY in *; lia|unfold to_second, SECOND in *; lia]. }
  eexists. eexists. split; [reflexivity|]. split; [reflexivity|].
  split.
  - unfold import_spec, dtstart_duration. cbn [v_dtstart v_dtend v_duration v_organizer v_attendees v_rrule wire].
    assert (A1 : wire_time (if e_allday e then IDate (dt_date (e_dtstart e)) else IFloat (e_dtstart e))
      = if e_allday e then IDate (dt_date (e_dtstart e)) else IFloat (to_second (e_dtstart e))) by now destruct (e_allday e).
    rewrite A1. destruct TT as (s & S1 & S2). rewrite S1, S2. cbn [rbind].
    assert (A2 : float_time tz (wire_time (if e_allday e then IDate (dt_date (e_dtstart e + d)) else IFloat (e_dtstart e + d))) = Ok (e_dtstart e + d)).
    { destruct (e_allday e); cbn [wire_time float_time float_datetime]; f_equal; exact TE. }
    rewrite A2. cbn [rbind]. 
    assert (A3 : match match e_recurrence e with Some r => Some (export_rule r) | None => None end with
       | Some rr => Some (wire_rule rr) | None => None end
       = match e_recurrence e with Some r => Some (wire_rule (export_rule r)) | None => None end) by now destruct (e_recurrence e).
    rewrite A3.
    assert (A4 : (match match e_recurrence e with Some r => Some (wire_rule (export_rule r)) | None => None end with
       | None => Ok None | Some rr => let* r := import_rule rr in Ok (Some r) end) = Ok rec).
    { rewrite <- RR1. now destruct (e_recurrence e). }
    rewrite A4. cbn [rbind]. rewrite <- S1. reflexivity.
  - apply (proj2 (will_modify_false _ _)). split; [|split].
    + unfold attrs_agree.
      cbn [s_dtstart s_duration s_title s_description s_location s_status s_recurrence s_allday s_categories s_transparent s_access s_document
           v_summary v_description v_location v_status v_categories v_transp v_class v_attach wire].
      rewrite !truthy_dflt. cbn [dflt].
      split; [reflexivity|]. split; [rewrite D; f_equal; lia|].
      repeat (split; [reflexivity|]). split; [exact RR2|]. split; [now destruct (e_allday e)|]. split; [tauto|].
      split; [now destruct (e_transparent e)|]. split; [reflexivity|].
      destruct (e_document e) as [[|a x]|]; [congruence|reflexivity|reflexivity].
    + exists main. cbn [s_organizer]. auto.
    + cbn [s_attendees]. intros a ro st [].
Qed.

(** ** the whole calendar *)
Lemma rmap_export main evs : Forall (exportable main) evs ->
  exists vs, rmap (export_event false) evs = Ok vs
   /\ Forall2 (fun e v => export_event false e = Ok v) evs vs.
Proof.
  induction 1 as [|e evs H _ (vs & E & F)]; [exists []; split; [reflexivity|constructor]|].
  destruct (event_round (fun _ => 0) (fun _ => false) main e H) as (v & _ & V & _).
  exists (v :: vs). cbn. rewrite V. cbn. rewrite E. split; [reflexivity|]. now constructor.
Qed.

Lemma import_own_export cf s c p cr main evs : store_inv s -> main_attendee s c = Ok (Some main) ->
  cal_events s c p cr = Ok evs -> Forall (exportable main) evs ->
  exists vs, export_cal s c p cr = Ok vs
    /\ forall sync, import_cal cf s c (Ok (Some (map wire vs))) p cr sync = (s, [], Ok tt).
Proof.
  intros I M E X. destruct (rmap_export main evs X) as (vs & V1 & V2). exists vs. split.
  { unfold export_cal. rewrite E. exact V1. }
  intros sync. unfold import_cal. rewrite sbind_slift, E, sbind_slift.
  set (known := nodup string_dec (map e_uid evs)).
  assert (L : forall es ws, Forall2 (fun e v => export_event false e = Ok v) es ws -> (forall e, In e es -> In e evs) ->
     import_loop cf s c known (map wire ws) = (s, [], Ok (map e_uid es))).
  { induction 1 as [|e v es ws EV _ IH]; intros SUB; [reflexivity|]. cbn [map import_loop].
    assert (He : In e evs) by (apply SUB; now left).
    assert (EX : exportable main e) by (now apply (proj1 (Forall_forall _ _) X)).
    destruct (event_round (cf_tz cf) (source_knows s) main e EX) as (v' & sp & V' & U & SP & W).
    assert (v' = v) by congruence. subst v'. destruct (cal_events_known s c p cr evs e I E He) as (r & D & ->).
    unfold import_one. change (v_uid (wire v)) with (v_uid v). rewrite U.
    assert (K : str_in (e_uid (obj s r)) known = true).
    { apply str_in_iff, known_in. eauto. }
    rewrite K. unfold import_existing, get_event. rewrite D, sbind_slift, sbind_slift, M, SP, sbind_slift, W.
    unfold sret, sbind at 1 2. rewrite IH by (intros; apply SUB; now right). reflexivity. }
  rewrite (L evs vs V2 (fun e H => H)). unfold sbind.
  assert (F : filter (fun u => negb (str_in u (map e_uid evs))) known = []).
  { unfold known. assert (Q : forall l, (forall u, In u l -> In u (map e_uid evs)) -> filter (fun u => negb (str_in u (map e_uid evs))) l = []).
    { induction l as [|u l IH]; intros H; [reflexivity|]. cbn [filter].
      assert (S : str_in u (map e_uid evs) = true) by (apply str_in_iff, H; now left). rewrite S. cbn. apply IH. intros; apply H; now right. }
    apply Q. intros u Hu. now apply nodup_In in Hu. }
  rewrite F. destruct sync; reflexivity.
Qed.

(** ** line endings *)
(** every bare LF becomes CR LF *)
Fixpoint crlf_of (s : string) : string :=
  match s with
  | EmptyString => EmptyString
  | String c r => if Ascii.eqb c LF then String CR (String LF (crlf_of r)) else String c (crlf_of r)
  end.

Lemma split_lf_nonempty s : exists x xs, split_lf s = x :: xs.
Proof.
  induction s as [|c s (x & xs & E)]; [exists EmptyString, []; reflexivity|]. cbn [split_lf].
  destruct (Ascii.eqb c LF); [eauto|]. rewrite E. eauto.
Qed.

Lemma join_cons sep c x xs : join sep (String c x :: xs) = String c (join sep (x :: xs)).
Proof. destruct xs; reflexivity. Qed.

Lemma join_split s : join CRLF (split_lf s) = crlf_of s.
Proof.
  induction s as [|c s IH]; [reflexivity|]. cbn [split_lf crlf_of]. destruct (split_lf_nonempty s) as (x & xs & E).
  destruct (Ascii.eqb_spec c LF) as [->|N].
  - rewrite <- IH, E. reflexivity.
  - rewrite E. rewrite join_cons, <- E, IH. reflexivity.
Qed.

(** the first LF and what precedes it *)
Lemma find_lf_spec s : match find_lf s with
  | None => crlf_of s = s
  | Some n => exists a b, s = (a ++ String LF b)%string /\ String.length a = n /\ find_lf a = None
  end.
Proof.
  induction s as [|c s IH]; [reflexivity|]. cbn [find_lf crlf_of]. destruct (Ascii.eqb_spec c LF) as [->|N].
  - exists EmptyString, s. auto.
  - destruct (find_lf s) as [n|].
    + destruct IH as (a & b & -> & L & F). exists (String c a), b. cbn. split; [reflexivity|]. split; [now rewrite L|].
      destruct (Ascii.eqb_spec c LF); [contradiction|]. now rewrite F.
    + now rewrite IH.
Qed.

Lemma find_lf_app a b : find_lf a = None -> find_lf (a ++ String LF b) = Some (String.length a).
Proof.
  induction a as [|c a IH]; [reflexivity|]. cbn. destruct (Ascii.eqb c LF); [discriminate|].
  destruct (find_lf a); [discriminate|]. intros _. now rewrite IH.
Qed.

Lemma crlf_of_app a b : crlf_of (a ++ b) = (crlf_of a ++ crlf_of b)%string.
Proof. induction a as [|c a IH]; [reflexivity|]. cbn. rewrite IH. now destruct (Ascii.eqb c LF). Qed.

Lemma crlf_of_none a : find_lf a = None -> crlf_of a = a.
Proof. intros H. pose proof (find_lf_spec a) as S. now rewrite H in S. Qed.

Lemma get_mid a c b : String.get (String.length a) (a ++ String c b) = Some c.
Proof. induction a as [|x a IH]; [reflexivity|exact IH]. Qed.

Lemma snoc_cases a : a = EmptyString \/ exists a' c, a = (a' ++ String c EmptyString)%string.
Proof.
  induction a as [|c a [->|(a' & c' & ->)]]; [now left|right; now exists EmptyString, c|right].
  exists (String c a'), c'. reflexivity.
Qed.

Lemma app_assoc_s a b c : ((a ++ b) ++ c = a ++ (b ++ c))%string.
Proof. induction a as [|x a IH]; [reflexivity|]. cbn. now rewrite IH. Qed.

Lemma length_snoc a c : String.length (a ++ String c EmptyString) = S (String.length a).
Proof. induction a as [|x a IH]; [reflexivity|]. cbn. now rewrite IH. Qed.

(** the three cases of the repair *)
Lemma repair_cases s :
  (find_lf s = None /\ repair_text s = s /\ crlf_of s = s)
  \/ (exists b, s = String LF b /\ repair_text s = s)
  \/ (exists a c b, s = (a ++ String c (String LF b))%string /\ find_lf (a ++ String c EmptyString) = None
      /\ repair_text s = if Ascii.eqb c CR then s else crlf_of s).
Proof.
  pose proof (find_lf_spec s) as F. unfold repair_text. destruct (find_lf s) as [n|] eqn:E; [|left; auto].
  destruct F as (a & b & -> & L & N). destruct (snoc_cases a) as [->|(a' & c & ->)].
  - cbn in L. subst n. right; left. exists b. auto.
  - rewrite length_snoc in L. subst n. right; right. exists a', c, b. rewrite app_assoc_s. cbn [append]. split; [reflexivity|].
    split; [exact N|]. rewrite get_mid. destruct (Ascii.eqb c CR); [reflexivity|]. now rewrite join_split.
Qed.

(** every LF is preceded by CR *)
Fixpoint all_crlf (prev : ascii) (s : string) : bool :=
  match s with
  | EmptyString => true
  | String c r => (negb (Ascii.eqb c LF) || Ascii.eqb prev CR) && all_crlf c r
  end.

Lemma all_crlf_app a c b : forall prev, all_crlf prev (a ++ String c (String LF b)) = true -> c = CR.
Proof.
  induction a as [|x a IH]; intros prev; cbn [append all_crlf]; rewrite ?Bool.andb_true_iff.
  - intros (_ & H & _). cbn in H. now apply Ascii.eqb_eq in H.
  - intros (_ & H). exact (IH _ H).
Qed.

Lemma crlf_of_all s : forall prev, (exists c b, s = String c b /\ c <> LF) \/ s = EmptyString \/ prev = CR ->
  all_crlf prev (crlf_of s) = true.
Proof.
  induction s as [|c s IH]; intros prev H; [reflexivity|]. cbn [crlf_of]. destruct (Ascii.eqb_spec c LF) as [->|N].
  - assert (A : forall q, q = LF -> all_crlf q (crlf_of s) = true -> all_crlf prev (String CR (String q (crlf_of s))) = true).
    { intros q -> X. cbn [all_crlf]. rewrite X. reflexivity. }
    apply A; [reflexivity|]. destruct s as [|c' s]; [reflexivity|]. cbn [crlf_of].
    destruct (Ascii.eqb_spec c' LF) as [->|N'].
    + specialize (IH CR (or_intror (or_intror eq_refl))). cbn [crlf_of] in IH. rewrite Ascii.eqb_refl in IH.
      cbn [all_crlf] in IH |- *. cbn in IH |- *. exact IH.
    + specialize (IH LF). cbn [crlf_of] in IH. destruct (Ascii.eqb_spec c' LF); [contradiction|]. apply IH. left. eauto.
  - cbn [all_crlf]. destruct (Ascii.eqb_spec c LF); [contradiction|]. cbn.
    destruct s as [|c' s]; [reflexivity|]. cbn [crlf_of]. destruct (Ascii.eqb_spec c' LF) as [->|N'].
    + specialize (IH CR (or_intror (or_intror eq_refl))). cbn [crlf_of] in IH. rewrite Ascii.eqb_refl in IH.
      cbn [all_crlf] in IH |- *. cbn in IH |- *. exact IH.
    + specialize (IH c). cbn [crlf_of] in IH. destruct (Ascii.eqb_spec c' LF); [contradiction|]. apply IH. left. eauto.
Qed.
