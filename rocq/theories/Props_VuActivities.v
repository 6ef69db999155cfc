(** Properties C83 and C84: one day of a first-generation vehicle unit. *)

From Verif Require Import Base Enums Chunks DDScalar Utf8 DDString DDRecord RawTypes Vu
  P_Scalar Props_Scalar P_Utf8 P_String Field P_Basic P_Record P_VuRecord Props_Layout Props_Overview Props_VuWrite.

(** ** The documented layout *)

Definition activities_bytes date odometer n_iw (iws : list bytes) n_changes (changes : list bytes)
  n_places (places : list bytes) n_conditions (conditions : list bytes) signature : bytes :=
  date ++ odometer ++ n_iw ++ concat iws ++ n_changes ++ concat changes ++ [n_places] ++ concat places ++
  n_conditions ++ concat conditions ++ signature.

(** Four bytes of decimal digits: year, month, day. *)
Definition is_date (l : bytes) (o : option date) : Prop :=
  exists e y1 y2 m d, o = Some e /\ l = [y1; y2; m; d] /\
    date_year e = y1 / 16 * 1000 + y1 mod 16 * 100 + y2 / 16 * 10 + y2 mod 16 /\
    date_month e = m / 16 * 10 + m mod 16 /\ date_day e = d / 16 * 10 + d mod 16.

(** One VuCardIWRecord. *)
Definition is_iw (b : bytes) (r : card_iw) : Prop :=
  exists surname names kind state number expiry t_in odo_in slot t_out odo_out nation plate t_before manual,
    b = iw_bytes surname names kind state number expiry t_in odo_in slot t_out odo_out nation plate t_before manual /\
    length surname = 36%nat /\ length names = 36%nat /\ length number = 16%nat /\ length expiry = 4%nat /\
    length t_in = 4%nat /\ length odo_in = 3%nat /\ length t_out = 4%nat /\ length odo_out = 3%nat /\
    length plate = 14%nat /\ length t_before = 4%nat /\
    (exists h, iw_holder r = Some h /\ text_of surname (hn_surname h) /\ text_of names (hn_first_names h)) /\
    (exists n, iw_card r = Some n /\ unmarshal_full_card_number (full_card kind state number) = Ok n) /\
    is_date expiry (iw_expiry r) /\ is_time t_in (iw_insertion r) /\ iw_odo_insertion r = num odo_in /\
    In (iw_slot r, Some slot) card_slot_number_table /\ is_time t_out (iw_withdrawal r) /\
    iw_odo_withdrawal r = num odo_out /\
    (exists p, iw_previous r = Some p /\ registration_of nation plate (pv_reg p) /\ is_time t_before (pv_withdrawal p)) /\
    (iw_manual r = true <-> manual <> 0).

(** One ActivityChangeInfo: slot, crew, card absent, activity, minute of the day. *)
Definition is_change (b : bytes) (c : activity_change) : Prop :=
  exists slot crew absent activity minute,
    num b = 32768 * slot + 16384 * crew + 8192 * absent + 2048 * activity + minute /\
    0 <= slot <= 1 /\ 0 <= crew <= 1 /\ 0 <= absent <= 1 /\ 0 <= activity <= 3 /\ 0 <= minute < 2048 /\
    In (ac_slot c, Some slot) card_slot_number_table /\ (ac_crew c = true <-> crew = 1) /\
    (ac_inserted c = true <-> absent = 0) /\
    In (ac_activity c, Some activity) driver_activity_value_table /\ ac_minutes c = minute.

(** One VuPlaceDailyWorkPeriodRecord; the message has no room for the card. *)
Definition is_place (b : bytes) (p : vu_place) : Prop :=
  exists card time entry country region odometer,
    b = card ++ time ++ [entry] ++ [country] ++ [region] ++ odometer /\
    length card = 18%nat /\ length time = 4%nat /\ length odometer = 3%nat /\
    is_time time (vp_time p) /\ In (vp_type p, Some entry) entry_type_daily_work_period_table /\
    In (vp_country p, Some country) nation_numeric_table /\ vp_region p = [region] /\
    vp_odometer p = num odometer.

(** One SpecificConditionRecord. *)
Definition is_condition (b : bytes) (c : spec_cond) : Prop :=
  exists time kind, b = time ++ [kind] /\ length time = 4%nat /\ is_time time (sc_time c) /\
    is_code specific_condition_type_table kind (sc_type c).

Lemma cut_at {A} (l : list A) n m : length l = (n + m)%nat ->
  exists a b, l = a ++ b /\ length a = n /\ length b = m.
Proof.
  intros H. exists (firstn n l), (skipn n l). rewrite firstn_skipn, firstn_length, skipn_length.
  repeat split; lia.
Qed.

Lemma odometer_is l v : unmarshal_odometer l = Ok v -> v = num l.
Proof. intros H. unfold unmarshal_odometer in H. inv_bind H. apply Ok_inj in H. now rewrite num_be. Qed.

Lemma date_is l e : unmarshal_date l = Ok e -> is_date l (Some e).
Proof.
  intros H. unfold unmarshal_date in H. inv_bind H. apply Ok_inj in H. subst e.
  apply guard_ok in E. apply Nat.eqb_eq in E.
  destruct l as [|y1 [|y2 [|m [|d [|? ?]]]]]; try discriminate E.
  eexists. exists y1, y2, m, d. split; [reflexivity|]. repeat split; reflexivity.
Qed.

Lemma iw_parts cm b r : length b = 129%nat -> unmarshal_card_iw cm b = Ok r -> is_iw b r.
Proof.
  intros L H.
  destruct (cut_at b 36 93 L) as (p1 & r1 & -> & L1 & M1).
  destruct (cut_at r1 36 57 M1) as (p2 & r2 & -> & L2 & M2).
  destruct (cut_at r2 1 56 M2) as (p3 & r3 & -> & L3 & M3).
  destruct (cut_at r3 1 55 M3) as (p4 & r4 & -> & L4 & M4).
  destruct (cut_at r4 16 39 M4) as (p5 & r5 & -> & L5 & M5).
  destruct (cut_at r5 4 35 M5) as (p6 & r6 & -> & L6 & M6).
  destruct (cut_at r6 4 31 M6) as (p7 & r7 & -> & L7 & M7).
  destruct (cut_at r7 3 28 M7) as (p8 & r8 & -> & L8 & M8).
  destruct (cut_at r8 1 27 M8) as (p9 & r9 & -> & L9 & M9).
  destruct (cut_at r9 4 23 M9) as (q1 & r10 & -> & L10 & M10).
  destruct (cut_at r10 3 20 M10) as (q2 & r11 & -> & L11 & M11).
  destruct (cut_at r11 1 19 M11) as (q3 & r12 & -> & L12 & M12).
  destruct (cut_at r12 14 5 M12) as (q4 & r13 & -> & L13 & M13).
  destruct (cut_at r13 4 1 M13) as (q5 & q6 & -> & L14 & M14).
  rename M14 into L15. clear M1 M2 M3 M4 M5 M6 M7 M8 M9 M10 M11 M12 M13.
  destruct p3 as [|k [|? ?]]; try discriminate L3. destruct p4 as [|st [|? ?]]; try discriminate L4.
  destruct p9 as [|sl [|? ?]]; try discriminate L9. destruct q3 as [|na [|? ?]]; try discriminate L12.
  destruct q6 as [|m [|? ?]]; try discriminate L15.
  assert (E : p1 ++ p2 ++ [k] ++ [st] ++ p5 ++ p6 ++ p7 ++ p8 ++ [sl] ++ q1 ++ q2 ++ [na] ++ q4 ++ q5 ++ [m] =
              (p1 ++ p2) ++ full_card k st p5 ++ p6 ++ p7 ++ p8 ++ [sl] ++ q1 ++ q2 ++ (([na] ++ q4) ++ q5) ++ [m]).
  { unfold full_card. rewrite <- !app_assoc. reflexivity. }
  rewrite E in *. 
  assert (Lf : length (full_card k st p5) = 18%nat) by now apply full_card_len.
  assert (Lp : length (([na] ++ q4) ++ q5) = 19%nat) by (rewrite !app_length; cbn [length]; lia).
  assert (Lh : length (p1 ++ p2) = 72%nat) by (rewrite !app_length; lia).
  unfold unmarshal_card_iw in H. 
  set (f := full_card k st p5) in *. set (pv := ([na] ++ q4) ++ q5) in *. set (h := p1 ++ p2) in *.
  assert (Ef : f = full_card k st p5) by reflexivity. assert (Epv : pv = ([na] ++ q4) ++ q5) by reflexivity.
  assert (Eh : h = p1 ++ p2) by reflexivity. clearbody f pv h.
  cut H. opened H. decoded.
  match goal with E : unmarshal_holder_name _ _ = Ok _ |- _ =>
    unfold unmarshal_holder_name in E; cut E; opened E end.
  match goal with E : unmarshal_previous_vehicle _ _ = Ok _ |- _ =>
    unfold unmarshal_previous_vehicle in E; cut E; opened E end.
  match goal with E : unmarshal_time (sub q5 _ 4) = Ok _ |- _ =>
    cbn [length] in E; rewrite L13 in E; cut E end.
  decoded.
  repeat match goal with E : unmarshal_odometer _ = Ok _ |- _ => apply odometer_is in E end.
  repeat match goal with E : unmarshal_date _ = Ok _ |- _ => apply date_is in E end.
  repeat match goal with E : unmarshal_enum _ _ = Ok _ |- _ => apply unmarshal_enum_sound in E end.
  exists p1, p2, k, st, p5, p6, p7, p8, sl, q1, q2, na, q4, q5, m.
  cbn [iw_holder iw_card iw_expiry iw_insertion iw_odo_insertion iw_slot iw_withdrawal iw_odo_withdrawal iw_previous iw_manual].
  split; [reflexivity|].
  do 10 (split; [assumption|]).
  split; [eexists; split; [reflexivity|]; split; assumption|].
  split; [eexists; split; [reflexivity|assumption]|].
  do 6 (split; [assumption|]).
  split; [eexists; split; [reflexivity|]; split; assumption|].
  destruct (Z.eqb_spec m 0) as [->|N]; split; intros C; try discriminate C; try reflexivity; try assumption.
  now destruct C.
Qed.

Lemma change_parts b c : bytes_ok b -> length b = 2%nat -> unmarshal_activity_change b = Ok c -> is_change b c.
Proof.
  intros B L H. unfold unmarshal_activity_change in H. cbv zeta in H. opened H.
  apply unmarshal_enum_sound in E0, E1.
  pose proof (be_range b B) as R. rewrite L in R. change (256 ^ Z.of_nat 2) with 65536 in R.
  unfold is_change. rewrite num_be. generalize dependent (be b). intros v E0 E1 R.
  exists (v / 32768 mod 2), (v / 16384 mod 2), (v / 8192 mod 2), (v / 2048 mod 4), (v mod 2048).
  cbn [ac_slot ac_crew ac_inserted ac_activity ac_minutes].
  split; [Z.div_mod_to_equations; lia|].
  do 5 (split; [Z.div_mod_to_equations; lia|]).
  split; [exact E0|]. split; [apply Z.eqb_eq|]. split; [apply Z.eqb_eq|]. split; [exact E1|reflexivity].
Qed.

Lemma place_parts b p : length b = 28%nat -> unmarshal_vu_place b = Ok p -> is_place b p.
Proof.
  intros L H.
  destruct (cut_at b 18 10 L) as (p1 & r1 & -> & L1 & M1).
  destruct (cut_at r1 4 6 M1) as (p2 & r2 & -> & L2 & M2).
  destruct (cut_at r2 1 5 M2) as (p3 & r3 & -> & L3 & M3).
  destruct (cut_at r3 1 4 M3) as (p4 & r4 & -> & L4 & M4).
  destruct (cut_at r4 1 3 M4) as (p5 & p6 & -> & L5 & L6). clear M1 M2 M3 M4.
  destruct p3 as [|e [|? ?]]; try discriminate L3. destruct p4 as [|n [|? ?]]; try discriminate L4.
  destruct p5 as [|g [|? ?]]; try discriminate L5.
  unfold unmarshal_vu_place in H. cut H. opened H. decoded.
  repeat match goal with E : unmarshal_odometer _ = Ok _ |- _ => apply odometer_is in E end.
  repeat match goal with E : unmarshal_enum _ _ = Ok _ |- _ => apply unmarshal_enum_sound in E end.
  exists p1, p2, e, n, g, p6. cbn [vp_time vp_type vp_country vp_region vp_odometer].
  repeat (split; [first [reflexivity|assumption]|]). assumption.
Qed.

Lemma condition_parts b c : length b = 5%nat -> unmarshal_spec_cond b = Ok c -> is_condition b c.
Proof.
  intros L H. destruct (cut_at b 4 1 L) as (p1 & p2 & -> & L1 & L2).
  destruct p2 as [|k [|? ?]]; try discriminate L2.
  unfold unmarshal_spec_cond in H. cut H. inv_bind H. inv_bind H. decoded.
  exists p1, k. split; [reflexivity|]. split; [exact L1|].
  assert (X : sc_time c = a0 /\ sc_type c = match unmarshal_enum specific_condition_type_table k with Ok v => v | _ => ENUM_UNRECOGNIZED end).
  { destruct (unmarshal_enum specific_condition_type_table k); apply Ok_inj in H; subst c; split; reflexivity. }
  destruct X as [-> ->]. split; [assumption|]. apply code_is; [known|reflexivity].
Qed.

(** ** C83: what a day is decoded to *)

Lemma activities_steps cm date odo n1 iws n2 chs n3 pls n4 cds sg x :
  length date = 4%nat -> length odo = 3%nat -> length n1 = 2%nat -> length n2 = 2%nat -> length n4 = 2%nat ->
  length sg = 128%nat ->
  num n1 = Z.of_nat (length iws) -> num n2 = Z.of_nat (length chs) -> n3 = Z.of_nat (length pls) ->
  num n4 = Z.of_nat (length cds) ->
  Forall (fun b => length b = 129%nat) iws -> Forall (fun b => length b = 2%nat) chs ->
  Forall (fun b => length b = 28%nat) pls -> Forall (fun b => length b = 5%nat) cds ->
  unmarshal_activities_gen1 cm (activities_bytes date odo n1 iws n2 chs n3 pls n4 cds sg) = Ok x ->
  exists t o rs cs ps ks,
    x = mkActs (activities_bytes date odo n1 iws n2 chs n3 pls n4 cds sg) t o rs cs ps ks sg /\
    unmarshal_time date = Ok t /\ unmarshal_odometer odo = Ok o /\
    Forall2 (fun b r => unmarshal_card_iw cm b = Ok r) iws rs /\
    Forall2 (fun b r => unmarshal_activity_change b = Ok r) chs cs /\
    Forall2 (fun b r => unmarshal_vu_place b = Ok r) pls ps /\
    Forall2 (fun b r => unmarshal_spec_cond b = Ok r) cds ks.
Proof.
  intros L1 L2 L3 L4 L5 L6 N1 N2 N3 N4 F1 F2 F3 F4 H.
  set (value := activities_bytes date odo n1 iws n2 chs n3 pls n4 cds sg) in *.
  unfold unmarshal_activities_gen1 in H. cbv zeta in H. unfold value at 1, activities_bytes in H. clearbody value.
  rewrite (eat_part 4 date) in H by exact L1. cbn [bind] in H. apply bind_ok in H as (t & E1 & H).
  rewrite (eat_part 3 odo) in H by exact L2. cbn [bind] in H. apply bind_ok in H as (o & E2 & H).
  rewrite (eat_part 2 n1) in H by exact L3. cbn [bind] in H. rewrite <- num_be, N1, Nat2Z.id in H.
  apply bind_ok in H as ([rs d1] & E3 & H). apply eat_records_parts in E3 as [-> E3]; [|exact F1].
  rewrite (eat_part 2 n2) in H by exact L4. cbn [bind] in H. rewrite <- num_be, N2, Nat2Z.id in H.
  apply bind_ok in H as ([cs d2] & E4 & H). apply eat_records_parts in E4 as [-> E4]; [|exact F2].
  rewrite (eat_part 1 [n3]) in H by reflexivity. cbn [bind nth] in H. rewrite N3, Nat2Z.id in H.
  apply bind_ok in H as ([ps d3] & E5 & H). apply eat_records_parts in E5 as [-> E5]; [|exact F3].
  rewrite (eat_part 2 n4) in H by exact L5. cbn [bind] in H. rewrite <- num_be, N4, Nat2Z.id in H.
  apply bind_ok in H as ([ks d4] & E6 & H). apply eat_records_parts in E6 as [-> E6]; [|exact F4].
  rewrite <- (app_nil_r sg) in H at 1. rewrite (eat_part 128 sg []) in H by exact L6.
  cbn [bind] in H. apply bind_ok in H as (u & _ & H). apply Ok_inj in H.
  exists t, o, rs, cs, ps, ks. auto 12.
Qed.

Lemma concat_ok bs : bytes_ok (concat bs) -> Forall bytes_ok bs.
Proof.
  induction bs as [|b bs IH]; intros B; [constructor|]. cbn in B. apply bytes_ok_app in B as [B1 B2]. constructor; auto.
Qed.

Theorem C83_activities_layout :
  forall cm date odometer n_iw iws n_changes changes n_places places n_conditions conditions signature x,
  length date = 4%nat -> length odometer = 3%nat -> length n_iw = 2%nat -> length n_changes = 2%nat ->
  length n_conditions = 2%nat -> length signature = 128%nat ->
  num n_iw = Z.of_nat (length iws) -> num n_changes = Z.of_nat (length changes) ->
  n_places = Z.of_nat (length places) -> num n_conditions = Z.of_nat (length conditions) ->
  Forall (fun b => length b = 129%nat) iws -> Forall (fun b => length b = 2%nat) changes ->
  Forall (fun b => length b = 28%nat) places -> Forall (fun b => length b = 5%nat) conditions ->
  Forall bytes_ok changes ->
  unmarshal_activities_gen1 cm
    (activities_bytes date odometer n_iw iws n_changes changes n_places places n_conditions conditions signature) = Ok x ->
  is_time date (ac_date x) /\ ac_odometer x = num odometer /\
  Forall2 is_iw iws (ac_iw x) /\ Forall2 is_change changes (ac_changes x) /\
  Forall2 is_place places (ac_places x) /\ Forall2 is_condition conditions (ac_conditions x) /\
  ac_signature x = signature.
Proof.
  intros cm date odo n1 iws n2 chs n3 pls n4 cds sg x L1 L2 L3 L4 L5 L6 N1 N2 N3 N4 F1 F2 F3 F4 B H.
  apply activities_steps in H; try assumption.
  destruct H as (t & o & rs & cs & ps & ks & -> & E1 & E2 & E3 & E4 & E5 & E6).
  cbn [ac_date ac_odometer ac_iw ac_changes ac_places ac_conditions ac_signature].
  apply time_is in E1. apply odometer_is in E2. split; [exact E1|]. split; [exact E2|].
  split; [eapply parts_of; [intros; eapply iw_parts; eauto|exact F1|exact E3]|].
  split.
  { clear - B F2 E4. induction E4 as [|b c bs cs E E4 IH]; [constructor|].
    apply Forall_cons_iff in B as [B1 B2], F2 as [L F2]. constructor; [now apply change_parts|auto]. }
  split; [eapply parts_of; [exact place_parts|exact F3|exact E5]|].
  split; [eapply parts_of; [exact condition_parts|exact F4|exact E6]|reflexivity].
Qed.
Print Assumptions C83_activities_layout.

(** ** C84: which days are accepted *)

(** Byte 72 of an insertion record is the kind of the card, byte 101 the slot;
    byte 22 of a place is the entry type, byte 23 the country. *)
Definition iw_readable (b : bytes) : Prop := In (nth 72 b 0) [1; 2; 4] /\ In (nth 101 b 0) [0; 1].
Definition place_readable (b : bytes) : Prop := 0 <= nth 22 b 0 <= 5 /\ nation_known (nth 23 b 0).

Lemma eat_records_all {X} (un : bytes -> res X) n bs m : Forall (fun b => length b = n) bs ->
  Forall (fun b => exists x, un b = Ok x) bs ->
  exists xs, eat_records un n (length bs) (concat bs ++ m) = Ok (xs, m).
Proof.
  intros L. induction L as [|b bs Lb L IH]; intros R.
  - exists []. reflexivity.
  - apply Forall_cons_iff in R as [(x & E) R]. destruct (IH R) as (xs & Exs).
    exists (x :: xs). cbn [length eat_records concat]. rewrite <- app_assoc, eat_part by exact Lb.
    cbn [bind]. rewrite E. cbn [bind]. rewrite Exs. reflexivity.
Qed.

Lemma iw_readable_iff cm b : bytes_ok b -> length b = 129%nat ->
  ((exists r, unmarshal_card_iw cm b = Ok r) <-> iw_readable b).
Proof.
  intros B L. pose proof (card_iw_implements cm b B L) as Q.
  assert (X : f_acc (fseq iw_fields) b = true <-> iw_readable b).
  { rewrite fseq_acc. unfold iw_fields.
    cbn [acc_at f_id f_enum f_if f_len f_acc f_w Nat.add bind].
    change (f_len (fseq holder_fields)) with 72%nat. change (f_len f_fcn) with 18%nat.
    change (f_len f_date) with 4%nat. change (f_len (fseq previous_fields)) with 19%nat.
    change (f_len f_flag) with 1%nat. cbn [Nat.add]. rewrite !nth_sub by lia. cbn [Nat.add].
    assert (Y1 : f_acc (fseq holder_fields) (sub b 0 72) = true) by reflexivity.
    assert (Y2 : f_acc (fseq previous_fields) (sub b 109 19) = true).
    { rewrite fseq_acc. unfold previous_fields. cbn [acc_at f_id f_acc]. now rewrite vreg_acc. }
    assert (Y3 : f_acc f_date (sub b 90 4) = true) by reflexivity.
    assert (Y4 : f_acc f_flag (sub b 128 1) = true) by reflexivity.
    rewrite Y1, Y2, Y3, Y4. cbn [andb f_fcn f_acc]. unfold acc_fcn. rewrite nth_sub by lia. cbn [Nat.add].
    rewrite andb_true_r, andb_true_iff, existsb_in. unfold iw_readable.
    assert (Y5 : is_ok (unmarshal_enum card_slot_number_table (nth 101 b 0)) = true <-> In (nth 101 b 0) [0; 1]).
    { unfold is_ok. destruct (unmarshal_enum card_slot_number_table (nth 101 b 0)) as [v|e|] eqn:E.
      - apply unmarshal_enum_sound in E. split; [intros _|reflexivity].
        unfold card_slot_number_table in E. simpl in E.
        repeat (destruct E as [E|E]; [first [discriminate E|injection E as _ E; simpl; auto]|]). destruct E.
      - split; [discriminate|]. intros [I|[I|[]]]; rewrite <- I in E; discriminate E.
      - split; [discriminate|]. intros [I|[I|[]]]; rewrite <- I in E; discriminate E. }
    rewrite Y5. reflexivity. }
  rewrite <- X. destruct (unmarshal_card_iw cm b) as [r|e|].
  - split; [intros _; apply Q|eauto].
  - rewrite Q. split; [intros (r & C); discriminate C|discriminate].
  - destruct Q.
Qed.

Lemma place_readable_iff b : length b = 28%nat -> ((exists p, unmarshal_vu_place b = Ok p) <-> place_readable b).
Proof.
  intros L. unfold unmarshal_vu_place, place_readable.
  destruct (unmarshal_time (sub b 18 4)) as [t|e|] eqn:E1.
  2, 3: unfold unmarshal_time in E1; rewrite sub_length in E1 by lia; cbv zeta in E1; cbn [Nat.eqb negb guard bind] in E1;
    destruct (be (sub b 18 4) =? 0); discriminate E1.
  unfold unmarshal_odometer. rewrite eq_guard by (apply sub_length; lia). cbn [bind].
  assert (Y : forall k, (exists v, unmarshal_enum entry_type_daily_work_period_table k = Ok v) <-> 0 <= k <= 5).
  { intros k. split.
    - intros (v & E). apply unmarshal_enum_sound in E. unfold entry_type_daily_work_period_table in E. simpl in E.
      repeat (destruct E as [E|E]; [first [discriminate E|injection E as _ E; lia]|]). destruct E.
    - intros R. assert (C : k = 0 \/ k = 1 \/ k = 2 \/ k = 3 \/ k = 4 \/ k = 5) by lia.
      repeat destruct C as [C|C]; subst k; eexists; reflexivity. }
  rewrite <- Y.
  assert (N : nation_known (nth 23 b 0) <-> exists v, unmarshal_enum nation_numeric_table (nth 23 b 0) = Ok v).
  { split; [intros K; destruct (nation_known_enum _ K) as (v & E & _); eauto|].
    intros (v & E). exists v. now apply unmarshal_enum_sound. }
  rewrite N. split.
  - intros (p & H). opened H. eauto.
  - intros ((v & ->) & (w & ->)). cbn [bind]. eauto.
Qed.

Lemma change_readable b : bytes_ok b -> length b = 2%nat -> exists c, unmarshal_activity_change b = Ok c.
Proof.
  intros B L. unfold unmarshal_activity_change. rewrite eq_guard by exact L. cbn [bind]. cbv zeta.
  assert (S0 : be b / 32768 mod 2 = 0 \/ be b / 32768 mod 2 = 1) by (pose proof (Z.mod_pos_bound (be b / 32768) 2); lia).
  assert (A0 : be b / 2048 mod 4 = 0 \/ be b / 2048 mod 4 = 1 \/ be b / 2048 mod 4 = 2 \/ be b / 2048 mod 4 = 3)
    by (pose proof (Z.mod_pos_bound (be b / 2048) 4); lia).
  destruct S0 as [-> | ->]; repeat destruct A0 as [A0|A0]; rewrite A0; eexists; reflexivity.
Qed.

Lemma condition_readable b : length b = 5%nat -> exists c, unmarshal_spec_cond b = Ok c.
Proof.
  intros L. unfold unmarshal_spec_cond. rewrite eq_guard by exact L. cbn [bind].
  destruct (unmarshal_time (sub b 0 4)) as [t|e|] eqn:E1.
  2, 3: unfold unmarshal_time in E1; rewrite sub_length in E1 by lia; cbv zeta in E1; cbn [Nat.eqb negb guard bind] in E1;
    destruct (be (sub b 0 4) =? 0); discriminate E1.
  cbn [bind]. destruct (unmarshal_enum _ _); eauto.
Qed.

Lemma forall2_all {X} (un : bytes -> res X) bs xs :
  Forall2 (fun b x => un b = Ok x) bs xs -> Forall (fun b => exists x, un b = Ok x) bs.
Proof. induction 1; constructor; eauto. Qed.

(** A well-framed day is accepted exactly if every card in it is a driver's, a
    workshop's or a company's, was put into slot 0 or 1, and every place has a
    documented entry type and country: one record decides about the whole day. *)
Theorem C84_accepted_days_partial :
  forall cm date odometer n_iw iws n_changes changes n_places places n_conditions conditions signature,
  length date = 4%nat -> length odometer = 3%nat -> length n_iw = 2%nat -> length n_changes = 2%nat ->
  length n_conditions = 2%nat -> length signature = 128%nat ->
  num n_iw = Z.of_nat (length iws) -> num n_changes = Z.of_nat (length changes) ->
  n_places = Z.of_nat (length places) -> num n_conditions = Z.of_nat (length conditions) ->
  Forall (fun b => length b = 129%nat) iws -> Forall (fun b => length b = 2%nat) changes ->
  Forall (fun b => length b = 28%nat) places -> Forall (fun b => length b = 5%nat) conditions ->
  let d := activities_bytes date odometer n_iw iws n_changes changes n_places places n_conditions conditions signature in
  bytes_ok d ->
  ((exists x, unmarshal_activities_gen1 cm d = Ok x) <-> Forall iw_readable iws /\ Forall place_readable places).
Proof.
  intros cm date odo n1 iws n2 chs n3 pls n4 cds sg L1 L2 L3 L4 L5 L6 N1 N2 N3 N4 F1 F2 F3 F4 d B.
  assert (Bs : Forall bytes_ok iws /\ Forall bytes_ok chs).
  { unfold d, activities_bytes in B. rewrite !bytes_ok_app in B.
    destruct B as (_ & _ & _ & B1 & _ & B2 & _). split; now apply concat_ok. }
  destruct Bs as [B1 B2].
  assert (R1 : Forall (fun b => exists r, unmarshal_card_iw cm b = Ok r) iws <-> Forall iw_readable iws).
  { clear - F1 B1. induction F1 as [|b bs L F1 IH]; [split; constructor|].
    apply Forall_cons_iff in B1 as [Bb B1]. rewrite !Forall_cons_iff, iw_readable_iff, IH by assumption. reflexivity. }
  assert (R3 : Forall (fun b => exists r, unmarshal_vu_place b = Ok r) pls <-> Forall place_readable pls).
  { clear - F3. induction F3 as [|b bs L F3 IH]; [split; constructor|].
    rewrite !Forall_cons_iff, place_readable_iff, IH by assumption. reflexivity. }
  rewrite <- R1, <- R3. split.
  - intros (x & H). apply activities_steps in H; try assumption.
    destruct H as (t & o & rs & cs & ps & ks & _ & _ & _ & E3 & _ & E5 & _).
    split; [exact (forall2_all _ _ _ E3)|exact (forall2_all _ _ _ E5)].
  - intros [A1 A3].
    assert (A2 : Forall (fun b => exists r, unmarshal_activity_change b = Ok r) chs).
    { clear - F2 B2. induction F2 as [|b bs L F2 IH]; [constructor|]. apply Forall_cons_iff in B2 as [Bb B2].
      constructor; [now apply change_readable|auto]. }
    assert (A4 : Forall (fun b => exists r, unmarshal_spec_cond b = Ok r) cds).
    { revert F4. apply Forall_impl. intros b. apply condition_readable. }
    unfold unmarshal_activities_gen1. cbv zeta. unfold d at 1, activities_bytes. clearbody d.
    rewrite (eat_part 4 date) by exact L1. cbn [bind].
    destruct (unmarshal_time date) as [t|e|] eqn:E1.
    2, 3: unfold unmarshal_time in E1; rewrite L1 in E1; cbv zeta in E1; cbn [Nat.eqb negb guard bind] in E1;
      destruct (be date =? 0); discriminate E1.
    cbn [bind]. rewrite (eat_part 3 odo) by exact L2. cbn [bind].
    unfold unmarshal_odometer at 1. rewrite eq_guard by exact L2. cbn [bind].
    rewrite (eat_part 2 n1) by exact L3. cbn [bind]. rewrite <- (num_be n1), N1, Nat2Z.id.
    destruct (eat_records_all (unmarshal_card_iw cm) 129 iws
      (n2 ++ concat chs ++ [n3] ++ concat pls ++ n4 ++ concat cds ++ sg) F1 A1) as (rs & ->). cbn [bind].
    rewrite (eat_part 2 n2) by exact L4. cbn [bind]. rewrite <- (num_be n2), N2, Nat2Z.id.
    destruct (eat_records_all unmarshal_activity_change 2 chs
      ([n3] ++ concat pls ++ n4 ++ concat cds ++ sg) F2 A2) as (cs & ->). cbn [bind].
    rewrite (eat_part 1 [n3]) by reflexivity. cbn [bind nth]. rewrite N3, Nat2Z.id.
    destruct (eat_records_all unmarshal_vu_place 28 pls (n4 ++ concat cds ++ sg) F3 A3) as (ps & ->). cbn [bind].
    rewrite (eat_part 2 n4) by exact L5. cbn [bind]. rewrite <- (num_be n4), N4, Nat2Z.id.
    destruct (eat_records_all unmarshal_spec_cond 5 cds sg F4 A4) as (ks & ->). cbn [bind].
    assert (Es : eat 128 sg = Ok (sg, [])) by (pose proof (eat_part 128 sg [] L6) as Q; now rewrite app_nil_r in Q).
    rewrite Es. cbn [bind length Nat.eqb guard]. eauto.
Qed.
Print Assumptions C84_accepted_days_partial.

(** The full statement "a day laid out as documented is accepted" is false: a
    control card in a slot, or a place in a country the enumeration does not know,
    costs the whole day. *)
Definition day (kind country : Z) : bytes :=
  activities_bytes [94; 12; 0; 0] [0; 0; 10] [0; 1]
    [iw_bytes sample_name sample_name kind 13 (repeat 49 16) [32; 37; 1; 2] [94; 12; 1; 0] [0; 0; 1] 0
       [94; 12; 2; 0] [0; 0; 2] 13 sample_number [94; 11; 0; 0] 0]
    [0; 2] [[0; 0]; [24; 60]] 1 [demo_card 1 ++ [94; 12; 1; 0] ++ [0] ++ [country] ++ [7] ++ [0; 0; 1]]
    [0; 1] [[94; 12; 1; 0] ++ [1]] (repeat 9 128).

Theorem C84_accepted_days_refuted :
  In (5, Some 3) equipment_type_table /\
  unmarshal_activities_gen1 (fun _ b => b) (day 3 13) = fail /\
  unmarshal_activities_gen1 (fun _ b => b) (day 1 60) = fail.
Proof. split; [simpl; tauto|]. split; vm_compute; reflexivity. Qed.
Print Assumptions C84_accepted_days_refuted.

Example C83_C84_apply : exists x, unmarshal_activities_gen1 (fun _ b => b) (day 1 13) = Ok x.
Proof.
  assert (E : is_ok (unmarshal_activities_gen1 (fun _ b => b) (day 1 13)) = true) by (vm_compute; reflexivity).
  destruct (unmarshal_activities_gen1 (fun _ b => b) (day 1 13)) as [x| |]; try discriminate E. eauto.
Qed.
