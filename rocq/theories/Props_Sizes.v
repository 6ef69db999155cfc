(** Property C120: in which size the files of a message are written. *)

From Verif Require Import Base Enums DDScalar P_Scalar Utf8 DDString P_String DDRecord RawTypes Infer CardBasic Chunks
  CardRecords CardIdent CardActivity DriverCard.

(** ** Parts *)

Ltac size := repeat first [rewrite copy_into_length | rewrite set_byte_length | rewrite zeros_length]; try lia.

Lemma time_size t b : append_time t = Ok b -> length b = 4%nat.
Proof. intros E. now apply append_time_length in E as [E _]. Qed.

Lemma string_size sv n b : append_string_value (Some sv) = Ok b -> sv_length sv = Some n -> Z.of_nat (length b) = 1 + n.
Proof.
  cbn [append_string_value]. intros E L. inv_bind E. destruct (sv_raw sv) as [r|]; cbn [odflt] in E.
  - inv_bind E0. rewrite L in E0. inv_ok. apply Z.eqb_eq in E0. apply negb_true_iff, Nat.ltb_ge in E1.
    destruct (Nat.ltb_spec 0 (length r)); [|lia]. inv_ok. now rewrite set_byte_length by lia.
  - cbn [length Nat.ltb Nat.leb] in E. rewrite L in E. destruct (_ >? _) eqn:G in E; [discriminate E|]. inv_ok.
    rewrite Z.gtb_ltb in G. apply Z.ltb_ge in G. cbn [length]. rewrite pad_spaces_length by lia. lia.
Qed.

Lemma ia5_size s n b : append_ia5 (Some s) = Ok b -> ia5_length s = Some n -> Z.of_nat (length b) = n.
Proof.
  cbn [append_ia5]. intros E L. rewrite L in E. destruct (ia5_raw s) as [r|].
  - destruct (Z.eqb_spec (Z.of_nat (length r)) n); [|discriminate E]. now inv_ok.
  - destruct (_ >? _) eqn:G in E; [discriminate E|]. inv_ok. rewrite Z.gtb_ltb in G. apply Z.ltb_ge in G.
    rewrite pad_spaces_length by lia. lia.
Qed.

Lemma canvas_size n raw c : raw_canvas_nonempty n raw = Ok c -> length c = n.
Proof.
  unfold raw_canvas_nonempty, raw_canvas. destruct (_ <? _)%nat; [|intros E; inv_ok; apply zeros_length].
  destruct (Nat.eqb_spec (length raw) n); [|discriminate]. intros E. now inv_ok.
Qed.

Lemma csv_size o b : append_csv o = Ok b -> length b = 2%nat.
Proof.
  unfold append_csv, raw_canvas. intros E. inv_bind E. destruct (csv_raw _) as [r|].
  - destruct (Nat.eqb_spec (length r) 2); [|discriminate E0]. inv_ok. size.
  - inv_ok. reflexivity.
Qed.

Lemma date_size o b : append_date o = Ok b -> length b = 4%nat.
Proof.
  unfold append_date, raw_canvas. intros E. inv_bind E. destruct (date_raw _) as [r|].
  - destruct (Nat.eqb_spec (length r) 4); [|discriminate E0]. inv_ok. size.
  - inv_ok. reflexivity.
Qed.

Lemma geo_size o : length (append_geo o) = 6%nat.
Proof. unfold append_geo, append_int24. destruct o; cbn; reflexivity. Qed.

Lemma gnss_size o b : append_gnss_place o = Ok b -> length b = 11%nat.
Proof.
  destruct o as [r|]; cbn [append_gnss_place]; intros E; [|inv_ok; reflexivity].
  inv_bind E. inv_bind E. inv_ok. rewrite !app_length, geo_size, (time_size _ _ E0). reflexivity.
Qed.

Lemma pad_copy_size n s : length (pad_copy n s) = n.
Proof. unfold pad_copy. rewrite copy_into_length; rewrite ?zeros_length; lia. Qed.

Lemma place_size r b : append_place r = Ok b -> length b = 10%nat.
Proof.
  unfold append_place. intros E. inv_bind E. inv_bind E. inv_ok. apply canvas_size in E0.
  destruct (pl_region r); size.
Qed.

Lemma place_g2_size r b : append_place_g2 r = Ok b -> length b = 21%nat.
Proof.
  unfold append_place_g2. intros E. inv_bind E. inv_bind E. inv_bind E. inv_ok. apply canvas_size in E0.
  destruct (pl2_region r); size.
Qed.

Lemma vehicle_size r b : append_card_vehicle r = Ok b -> length b = 31%nat.
Proof. unfold append_card_vehicle. intros E. do 5 inv_bind E. inv_ok. apply canvas_size in E0. size. Qed.

Lemma vehicle_g2_size r b : append_card_vehicle_g2 r = Ok b -> length b = 48%nat.
Proof. unfold append_card_vehicle_g2. intros E. do 5 inv_bind E. inv_ok. apply canvas_size in E0. size. Qed.

Lemma gnss_record_size r b : append_gnss_record r = Ok b -> length b = 18%nat.
Proof.
  unfold append_gnss_record. intros E. do 3 inv_bind E. inv_ok.
  rewrite !app_length, (time_size _ _ E0), (gnss_size _ _ E1), append_odometer_length. reflexivity.
Qed.

Lemma unit_size r b : append_unit_record r = Ok b -> length b = 10%nat.
Proof.
  unfold append_unit_record. intros E. do 4 inv_bind E. inv_ok.
  rewrite !app_length, (time_size _ _ E0), !pad_copy_size. reflexivity.
Qed.

Lemma condition_size r b : append_spec_cond r = Ok b -> length b = 5%nat.
Proof. unfold append_spec_cond. intros E. do 2 inv_bind E. inv_ok. rewrite app_length, (time_size _ _ E0). reflexivity. Qed.

Lemma concat_size {A} (ap : A -> res bytes) n : forall l b, (forall r b, ap r = Ok b -> length b = n) ->
  concat_res ap l = Ok b -> length b = (n * length l)%nat.
Proof.
  induction l as [|r l IH]; intros b H E; cbn [concat_res] in E; [inv_ok; cbn; lia|].
  inv_bind E. inv_bind E. inv_ok. rewrite app_length, (H _ _ E0), (IH _ H E1). cbn [length]. lia.
Qed.

Lemma paint_size {A} (ap : A -> res bytes) n : forall l c off b, (off + n * length l <= length c)%nat ->
  paint_records ap n c off l = Ok b -> length b = length c.
Proof.
  induction l as [|r l IH]; intros c off b L E; cbn [paint_records] in E; [now inv_ok|].
  cbn [length] in L. inv_bind E. inv_bind E. apply IH in E; rewrite copy_into_length in *; lia.
Qed.

Lemma pointer_file_size {A} (ap : A -> res bytes) n p raw rs b : (forall r b, ap r = Ok b -> length b = n) ->
  append_pointer_file ap n p raw rs = Ok b -> length b = (length p + n * length rs)%nat.
Proof.
  intros H. unfold append_pointer_file. destruct (Nat.eqb_spec (length raw) (length p + length rs * n)) as [L|_]; intros E.
  - apply paint_size in E; rewrite copy_into_length in *; lia.
  - inv_bind E. inv_ok. now rewrite app_length, (concat_size ap n _ _ H E0).
Qed.

Lemma fit_size : forall l c off o, paint_fit c off l = Ok o ->
  match o with
  | Some b => length b = length c /\ (l <> [] -> off + 5 * length l <= length c)%nat
  | None => (length c < off + 5 * length l)%nat
  end.
Proof.
  induction l as [|r l IH]; intros c off o E; cbn [paint_fit] in E; [inv_ok; split; [reflexivity|congruence]|].
  cbn [length]. destruct (Nat.ltb_spec (length c) (off + 5)); [inv_ok; lia|].
  inv_bind E. inv_bind E. apply IH in E. destruct o as [b|]; rewrite copy_into_length in E by lia.
  - destruct E as [E1' E2']. split; [exact E1'|]. intros _. destruct l; [cbn; lia|]. specialize (E2' ltac:(congruence)). lia.
  - lia.
Qed.

Lemma number_size c : length (append_card_number c) = 16%nat.
Proof.
  assert (H : forall n o, length (number_bytes n o) = n).
  { intros n [s|]; cbn [number_bytes]; [|apply zeros_length]. apply pad_spaces_length. rewrite firstn_length. lia. }
  destruct c; cbn [append_card_number]; rewrite ?app_length, ?H; reflexivity.
Qed.

Lemma serial_size o b : append_ext_serial_as_string o 8 = Ok b -> length b = 8%nat.
Proof.
  unfold append_ext_serial_as_string. destruct o as [e|]; [|discriminate]. cbv zeta. intros E. inv_bind E. inv_bind E. inv_ok.
  rewrite app_length, firstn_length, zeros_length.
  set (c0 := if es_serial e =? 0 then _ else _) in *. assert (L0 : length c0 = 8%nat) by (subst c0; destruct (_ =? 0); size; reflexivity).
  set (c1 := if (2 <=? _)%nat then _ else _) in *. assert (L1 : length c1 = 8%nat) by (subst c1; destruct (2 <=? _)%nat; size; rewrite ?L0; lia).
  assert (L2 : length a0 = 8%nat). { destruct (_ =? ENUM_UNSPECIFIED); [now inv_ok|]. inv_bind E1. inv_ok. size. }
  destruct (es_manufacturer e =? 0); size; rewrite ?L2; try reflexivity; rewrite set_byte_length, L2; lia.
Qed.

(** ** Texts of documented size *)

(** A text that is there and declares so many characters *)
Definition text_there (n : Z) (o : option string_value) : Prop := exists s, o = Some s /\ sv_length s = Some n.
Definition plain_there (n : Z) (o : option ia5) : Prop := exists s, o = Some s /\ ia5_length s = Some n.

(** ... or is not there *)
Definition text_or_none (n : Z) (o : option string_value) : Prop := o = None \/ text_there n o.
Definition plain_or_none (n : Z) (o : option ia5) : Prop := o = None \/ plain_there n o.

Lemma text_part n o b : text_or_none n o -> append_string_value o = Ok b -> 0 < n ->
  (o = None /\ length b = 1%nat) \/ (text_there n o /\ Z.of_nat (length b) = 1 + n).
Proof.
  intros [->|T] E N; [left|right]. - split; [reflexivity|]. cbn in E. now inv_ok.
  - split; [exact T|]. destruct T as (s & -> & L). exact (string_size s n b E L).
Qed.

Lemma plain_part n o b : plain_or_none n o -> append_ia5 o = Ok b -> 0 < n ->
  (o = None /\ length b = 0%nat) \/ (plain_there n o /\ Z.of_nat (length b) = n).
Proof.
  intros [->|T] E N; [left|right]. - split; [reflexivity|]. cbn in E. now inv_ok.
  - split; [exact T|]. destruct T as (s & -> & L). exact (ia5_size s n b E L).
Qed.

Lemma text_not_none n o : text_there n o -> o <> None. Proof. intros (s & -> & _). discriminate. Qed.
Lemma plain_not_none n o : plain_there n o -> o <> None. Proof. intros (s & -> & _). discriminate. Qed.

Lemma vreg_size v b : text_or_none 13 (vr_number v) -> append_vreg (Some v) = Ok b -> length b = 15%nat.
Proof.
  cbn [append_vreg]. intros T E. inv_bind E. inv_bind E. inv_ok. cbn [length]. f_equal. destruct T as [N|(s & Es & L)].
  - rewrite N in E1. apply (string_size _ 13) in E1; [lia|reflexivity].
  - rewrite Es in E1. apply (string_size _ 13) in E1; [lia|exact L].
Qed.

(** The number of a control card, of the kind that its type says *)
Definition control_number (x : control_activity) : option ia5 :=
  match ca_card x with
  | Some (mkCNG (Some n) _) =>
      if fcn_type n =? 3 then match fcn_driver n with Some d => di_number d | None => None end
      else if (fcn_type n =? 4) || (fcn_type n =? 6) then match fcn_owner n with Some o => oi_number o | None => None end
      else None
  | _ => None
  end.

Lemma day_measure r n : record_size r = Ok n ->
  n = if day_valid r then if (0 <? day_len r)%Z then Z.to_nat (day_len r) else (12 + 2 * length (day_changes r))%nat
      else length (day_raw r).
Proof.
  unfold record_size, day_size. destruct (day_valid r).
  - intros E. inv_ok. destruct (0 <? day_len r); [reflexivity|]. lia.
  - destruct (_ <? _)%nat; intros E; now inv_ok.
Qed.

Lemma map_sizes : forall rs l, map_res record_size rs = Ok l ->
  l = map (fun d => if day_valid d then if (0 <? day_len d)%Z then Z.to_nat (day_len d) else (12 + 2 * length (day_changes d))%nat
                    else length (day_raw d)) rs.
Proof.
  induction rs as [|r rs IH]; intros l E; cbn [map_res] in E; [now inv_ok|].
  inv_bind E. inv_bind E. inv_ok. cbn [map]. f_equal; [now apply day_measure|now apply IH].
Qed.

(** ** C120 *)

(** Every file of a message is written in the size that it has on a card, whatever parts
    are missing, or refused: this holds ...

    1. for chip, application identifications, and download, for all messages;
    2. for lists, whose size is that of the records, for all messages, except that old
       bytes that are longer than the conditions of a second generation card stay, and
       for activities: with the bytes that they were read from, or the sizes of the days;
    3. for the others if texts that are there declare the size that they have on a card,
       exactly if certain of them are not missing.

    Faults are written as events are, and files of the second generation that are not
    mentioned as the ones of the first. *)
Theorem C120_sizes_partial :
  (forall x b, append_content S_ic x = Ok b -> length b = 8%nat) /\
  (forall x b, append_content S_app_id x = Ok b -> length b = 10%nat) /\
  (forall x b, append_content S2_app_id x = Ok b -> length b = 17%nat) /\
  (forall x b, append_content S2_app_v2 x = Ok b -> length b = 4%nat) /\
  (forall x b, append_content S_download x = Ok b -> length b = 4%nat) /\
  (forall x b, append_content S_places x = Ok b -> length b = (1 + 10 * length (ps_records x))%nat) /\
  (forall x b, append_content S2_places x = Ok b -> length b = (2 + 21 * length (ps2_records x))%nat) /\
  (forall x b, append_content S_vehicles x = Ok b -> length b = (2 + 31 * length (vs_records x))%nat) /\
  (forall x b, append_content S2_vehicles x = Ok b -> length b = (2 + 48 * length (vs2_records x))%nat) /\
  (forall x b, append_content S2_gnss x = Ok b -> length b = (2 + 18 * length (gps_records x))%nat) /\
  (forall x b, append_content S2_units x = Ok b -> length b = (2 + 10 * length (uu_records x))%nat) /\
  (forall x b, append_content S_conditions x = Ok b -> length b = (5 * length (co_records x))%nat) /\
  (forall x b, append_content S2_conditions x = Ok b ->
     length b = Nat.max (2 + 5 * length (co2_records x)) (length (co2_raw x))) /\
  (forall l b, append_content S_events l = Ok b ->
     (forall r, In r l -> if ev_valid r then forall v, ev_vehicle r = Some v -> text_or_none 13 (vr_number v) else length (ev_raw r) = 24%nat) ->
     length b = (24 * length l)%nat) /\
  (forall x b, append_content S_usage x = Ok b ->
     (forall v, cu_vehicle x = Some v -> text_or_none 13 (vr_number v)) -> length b = 19%nat) /\
  (forall x b, append_content S_licence x = Ok b -> text_or_none 35 (dl_authority x) -> plain_or_none 16 (dl_number x) ->
     (length b = 53%nat <-> dl_authority x <> None /\ dl_number x <> None)) /\
  (forall x b, append_content S_control x = Ok b ->
     (forall v, ca_vehicle x = Some v -> text_or_none 13 (vr_number v)) -> plain_or_none 18 (control_number x) ->
     (length b = 46%nat <-> (ca_valid x = true -> control_number x <> None))) /\
  (forall x b, append_content S_icc x = Ok b -> plain_or_none 8 (icc_approval x) ->
     (forall e, icc_embedder x = Some e -> plain_or_none 2 (em_country e) /\ plain_or_none 2 (em_module e)) ->
     length (icc_ic_identifier x) = 2%nat ->
     (length b = 25%nat <-> icc_approval x <> None /\
        forall e, icc_embedder x = Some e -> em_country e <> None /\ em_module e <> None)) /\
  (forall x b, append_content S_identification x = Ok b ->
     (forall c, ident_card_part x = Some c -> text_or_none 35 (id_authority c)) ->
     (forall h, ident_holder_part x = Some h ->
        text_or_none 35 (ih_surname h) /\ text_or_none 35 (ih_first_names h) /\ plain_or_none 2 (ih_language h)) ->
     (length b = 143%nat <-> exists c h, ident_card_part x = Some c /\ ident_holder_part x = Some h /\
        id_authority c <> None /\ ih_surname h <> None /\ ih_first_names h <> None /\ ih_language h <> None)) /\
  (forall x b, append_content S_activity x = Ok b -> length b = (4 +
     match act_raw x with
     | [] => fold_right Nat.add 0 (map (fun d =>
               if day_valid d then if (0 <? day_len d)%Z then Z.to_nat (day_len d) else 12 + 2 * length (day_changes d)
               else length (day_raw d)) (act_days x))
     | r => length r
     end)%nat) /\
  (append_content S2_activity = append_content S_activity /\
   append_content S2_download = append_content S_download /\ append_content S2_usage = append_content S_usage /\
   append_content S_faults = append_content S_events /\ append_content S2_events = append_content S_events /\
   append_content S2_faults = append_content S_events /\ append_content S2_licence = append_content S_licence /\
   append_content S2_control = append_content S_control /\ append_content S2_identification = append_content S_identification).
Proof.
  repeat match goal with |- _ /\ _ => split end; try reflexivity; intros x b E; cbn [append_content] in E.
  - cbn [append_ic] in E. inv_ok. now rewrite app_length, !pad_copy_size.
  - cbn [append_app_id] in E. inv_bind E. inv_ok. assert (length a = 2%nat) as L.
    { destruct (ai_version x); [now apply csv_size in E0|now inv_ok]. }
    rewrite !app_length, L. destruct (_ =? DRIVER_CARD); [|reflexivity]. destruct (ai_driver x); reflexivity.
  - cbn [append_app_id_g2] in E. inv_bind E. inv_ok. assert (length a = 2%nat) as L.
    { destruct (ai2_version x); [now apply csv_size in E0|now inv_ok]. }
    rewrite !app_length, L. destruct (_ =? DRIVER_CARD); [|reflexivity]. destruct (ai2_driver x); reflexivity.
  - cbn [append_app_id_v2] in E. now inv_ok.
  - cbn [append_card_download] in E. now apply time_size in E.
  - cbn [append_places] in E. exact (pointer_file_size _ _ _ _ _ _ place_size E).
  - cbn [append_places_g2] in E. rewrite (pointer_file_size _ _ _ _ _ _ place_g2_size E), to_be_length. reflexivity.
  - cbn [append_vehicles] in E. rewrite (pointer_file_size _ _ _ _ _ _ vehicle_size E), to_be_length. reflexivity.
  - cbn [append_vehicles_g2] in E. rewrite (pointer_file_size _ _ _ _ _ _ vehicle_g2_size E), to_be_length. reflexivity.
  - cbn [append_gnss_places] in E. inv_bind E. inv_ok. now rewrite app_length, to_be_length, (concat_size _ _ _ _ gnss_record_size E0).
  - cbn [append_units_used] in E. inv_bind E. inv_ok. now rewrite app_length, to_be_length, (concat_size _ _ _ _ unit_size E0).
  - cbn [append_conditions] in E. exact (pointer_file_size _ _ _ _ _ _ condition_size E).
  - cbn [append_conditions_g2] in E. inv_bind E. destruct (Nat.ltb_spec 0 (length (co2_raw x))) as [L|L].
    + inv_bind E0. destruct (Nat.ltb_spec (length (co2_raw x)) 2) as [L2|L2].
      { exfalso. revert E1. unfold slice. destruct (_ && _)%bool eqn:G; [|discriminate]. apply andb_true_iff in G as [_ G]. apply Nat.leb_le in G. lia. }
      apply fit_size in E0. destruct a as [c|]; rewrite copy_into_length in E0 by lia.
      * inv_ok. destruct E0 as [-> H]. destruct (co2_records x); [cbn [length]; lia|]. specialize (H ltac:(congruence)). lia.
      * inv_bind E. inv_ok. rewrite app_length, to_be_length, (concat_size _ _ _ _ condition_size E2). lia.
    + inv_ok. inv_bind E. inv_ok. rewrite app_length, to_be_length, (concat_size _ _ _ _ condition_size E0). lia.
  - intros H. unfold append_events in E. cbn [odflt] in E. revert b E H. induction x as [|r l IH]; intros b E H; cbn [concat_res] in E; [now inv_ok|].
    inv_bind E. inv_bind E. inv_ok. rewrite app_length, (IH _ E1) by (intros r0 I; apply H; now right). cbn [length].
    enough (length a = 24%nat) by lia. specialize (H r ltac:(now left)). unfold append_event in E0.
    destruct (ev_valid r); cbn [negb] in E0; [|now inv_ok].
    apply bind_ok in E0 as (t1 & T1 & E0). apply bind_ok in E0 as (t2 & T2 & E0). apply bind_ok in E0 as (w & W & E0). inv_ok.
    destruct (ev_vehicle r) as [v|]; [|discriminate W].
    rewrite !app_length, (time_size _ _ T1), (time_size _ _ T2), (vreg_size _ _ (H v eq_refl) W). reflexivity.
  - intros H. cbn [append_current_usage] in E. inv_bind E. inv_bind E. inv_ok. rewrite app_length, (time_size _ _ E0).
    destruct (cu_vehicle x) as [v|]; [now rewrite (vreg_size _ _ (H v eq_refl) E1)|]. inv_ok. now rewrite zeros_length.
  - intros A N. cbn [append_driving_licence] in E. inv_bind E. inv_bind E. inv_bind E. inv_ok. rewrite !app_length. cbn [length].
    apply (text_part 35) in E0; [|exact A|lia]. apply (plain_part 16) in E2; [|exact N|lia].
    clear A N. destruct E0 as [[A ?]|[A ?]], E2 as [[N ?]|[N ?]]; (split; [intros G|intros [G1 G2]]); try lia; try contradiction.
    split; [exact (text_not_none _ _ A)|exact (plain_not_none _ _ N)].
  - intros V N. cbn [append_control_activity] in E. destruct (ca_valid x) eqn:Va; cbn [negb] in E.
    2:{ split; [discriminate|]. intros _. destruct (Nat.eqb_spec (length (ca_raw x)) 46) as [L|L]; cbn [negb] in E; inv_ok; [exact L|apply zeros_length]. }
    inv_bind E. inv_bind E. inv_bind E. inv_bind E. inv_bind E. inv_ok. destruct (ca_vehicle x) as [v|]; [|discriminate E2].
    rewrite !app_length, (time_size _ _ E0), (time_size _ _ E3), (time_size _ _ E4), (vreg_size _ _ (V v eq_refl) E2). cbn [length].
    assert (K : (control_number x = None /\ (length a0 <= 1)%nat) \/ (plain_there 18 (control_number x) /\ length a0 = 18%nat)).
    { clear - E1 N. unfold control_number in *. destruct (ca_card x) as [[[n|] g]|]; cbn [cng_number append_full_card_number_as_string] in E1; [|discriminate E1|discriminate E1].
      unfold EQ_DRIVER_CARD, EQ_WORKSHOP_CARD, EQ_COMPANY_CARD in E1. cbn [append_string_value] in E1.
      assert (Q : forall o, plain_or_none 18 o -> append_ia5 o = Ok a0 -> (o = None /\ (length a0 <= 1)%nat) \/ (plain_there 18 o /\ length a0 = 18%nat)).
      { intros o P Q. apply (plain_part 18) in Q; [|exact P|lia]. destruct Q as [[Q1 Q2]|[Q1 Q2]]; [left|right]; split; auto; lia. }
      destruct (fcn_type n =? 3).
      - destruct (fcn_driver n); [now apply Q|]. left. inv_ok. split; [reflexivity|cbn; lia].
      - destruct ((fcn_type n =? 4) || (fcn_type n =? 6)).
        + destruct (fcn_owner n); [now apply Q|]. left. inv_ok. split; [reflexivity|cbn; lia].
        + left. inv_ok. split; [reflexivity|cbn; lia]. }
    destruct K as [[K L]|[K L]]; split; intros G; try lia. { now specialize (G eq_refl). }
    intros _. exact (plain_not_none _ _ K).
  - intros A M I. unfold append_icc in E. cbn [odflt] in E. inv_bind E. inv_bind E. inv_bind E. inv_bind E. inv_ok.
    rewrite !app_length, (serial_size _ _ E1), I. cbn [length]. apply (plain_part 8) in E2; [|exact A|lia].
    assert (K : ((exists e, icc_embedder x = Some e /\ ~ (em_country e <> None /\ em_module e <> None)) /\ (length a2 <= 3)%nat)
      \/ ((forall e, icc_embedder x = Some e -> em_country e <> None /\ em_module e <> None) /\ length a2 = 5%nat)).
    { clear - E3 M. destruct (icc_embedder x) as [e|]; cbn [append_embedder] in E3.
      - destruct (M e eq_refl) as [P Q]. inv_bind E3. inv_bind E3. inv_ok. rewrite !app_length. cbn [length].
        apply (plain_part 2) in E; [|exact P|lia]. apply (plain_part 2) in E0; [|exact Q|lia].
        destruct E as [[C ?]|[C ?]], E0 as [[D ?]|[D ?]].
        1,2,3: left; split; [exists e; split; [reflexivity|intros [G1 G2]; contradiction]|lia].
        right. split; [|lia]. intros e' E'. injection E' as <-. split; [exact (plain_not_none _ _ C)|exact (plain_not_none _ _ D)].
      - right. inv_ok. split; [discriminate|reflexivity]. }
    destruct E2 as [[E2 ?]|[E2 ?]], K as [[K ?]|[K ?]]; (split; [intros G|intros [G1 G2]]); try lia; try contradiction.
    + destruct K as (e & Ee & Ne). exfalso. exact (Ne (G2 e Ee)).
    + split; [exact (plain_not_none _ _ E2)|exact K].
  - intros A H. cbn [append_identification] in E. inv_bind E. inv_bind E. inv_ok. rewrite app_length.
    assert (K : (length a <= 30)%nat /\ (forall c, ident_card_part x = Some c -> id_authority c = None)
      \/ (exists c, ident_card_part x = Some c /\ id_authority c <> None) /\ length a = 65%nat).
    { clear - E0 A. destruct (ident_card_part x) as [c|]; cbn [append_card_identification] in E0.
      - do 5 inv_bind E0. inv_ok. rewrite !app_length, number_size, (time_size _ _ E2), (time_size _ _ E3), (time_size _ _ E4). cbn [length].
        apply (text_part 35) in E1; [|now apply A|lia]. destruct E1 as [[E1 ?]|[E1 ?]]; [left|right]; (split; [|try lia]); [lia|intros c' Ec; now injection Ec as <-|].
        exists c. split; [reflexivity|exact (text_not_none _ _ E1)].
      - left. inv_ok. split; [cbn; lia|discriminate]. }
    assert (Q : (length a0 < 78)%nat /\ (forall h, ident_holder_part x = Some h ->
        ~ (ih_surname h <> None /\ ih_first_names h <> None /\ ih_language h <> None))
      \/ (exists h, ident_holder_part x = Some h /\ ih_surname h <> None /\ ih_first_names h <> None /\ ih_language h <> None) /\ length a0 = 78%nat).
    { clear - E1 H. destruct (ident_holder_part x) as [h|]; cbn [append_holder_identification] in E1.
      - destruct (H h eq_refl) as (P1 & P2 & P3). do 4 inv_bind E1. inv_ok. rewrite !app_length.
        assert (L : length a2 = 4%nat). { destruct (ih_birth h); [exact (date_size _ _ E2)|now inv_ok]. }
        apply (text_part 35) in E; [|exact P1|lia]. apply (text_part 35) in E0; [|exact P2|lia]. apply (plain_part 2) in E3; [|exact P3|lia].
        destruct E as [[C ?]|[C ?]], E0 as [[D ?]|[D ?]], E3 as [[F3 ?]|[F3 ?]].
        1-7: left; split; [lia|intros h' Eh; injection Eh as <-; intros (G1 & G2 & G3); contradiction].
        right. split; [|lia]. exists h. repeat split; [exact (text_not_none _ _ C)|exact (text_not_none _ _ D)|exact (plain_not_none _ _ F3)].
      - left. inv_ok. split; [cbn; lia|discriminate]. }
    destruct K as [[L K]|[K L]], Q as [[L' Q]|[Q L']]; (split; [intros G|intros (c & h & Ec & Eh & G1 & G2)]); try lia.
    + contradiction (G1 (K c Ec)).
    + contradiction (G1 (K c Ec)).
    + contradiction (Q h Eh G2).
    + destruct K as (c & Ec & K), Q as (h & Eh & Q). exists c, h. repeat split; tauto.
  - cbn [append_activity] in E. inv_bind E. inv_ok. rewrite !app_length, !to_be_length.
    enough (length a = match act_raw x with [] => fold_right Nat.add 0%nat (map (fun d =>
               if day_valid d then if (0 <? day_len d)%Z then Z.to_nat (day_len d) else (12 + 2 * length (day_changes d))%nat
               else length (day_raw d)) (act_days x)) | r => length r end) as -> by reflexivity.
    destruct (act_raw x) as [|z r]; cbn [length Nat.ltb Nat.leb] in E0; [|now inv_ok]. clear - E0.
    unfold build_ring in E0. inv_bind E0.
    assert (W : forall rs buf pos prev out, (pos + list_sum (map (fun d =>
               if day_valid d then if (0 <? day_len d)%Z then Z.to_nat (day_len d) else (12 + 2 * length (day_changes d))%nat
               else length (day_raw d)) rs) <= length buf)%nat -> write_days buf pos prev rs = Ok out -> length out = length buf).
    { clear. induction rs as [|r rs IH]; intros buf pos prev out L E; cbn [write_days] in E; [now inv_ok|].
      cbn [map list_sum fold_right] in L. inv_bind E. inv_bind E. apply day_measure in E0. subst a.
      assert (K : length (copy_into buf pos (length buf) a0) = length buf).
      { apply copy_into_length; lia. }
      apply IH in E; rewrite K in *; [exact E|]. unfold list_sum. lia. }
    apply map_sizes in E. subst a0. apply W in E0; rewrite zeros_length in *; [exact E0|lia].
Qed.

(** The parts that files and transfers are made of have their size, missing or not.  A full
    card number has it if its number is missing as a whole, or has texts of 14 (driver) or
    13, 1, 1 and 1 characters; with its generation one byte more. *)
Theorem C120_parts_partial :
  (forall o b, append_time o = Ok b -> length b = 4%nat) /\
  (forall o b, append_date o = Ok b -> length b = 4%nat) /\
  (forall o b, append_csv o = Ok b -> length b = 2%nat) /\
  (forall o b, append_month_year o = Ok b -> length b = 2%nat) /\
  (forall o b, append_control_type o = Ok b -> length b = 1%nat) /\
  (forall o, length (append_odometer o) = 3%nat) /\
  (forall o, length (append_geo o) = 6%nat) /\
  (forall o b, append_gnss_place o = Ok b -> length b = 11%nat) /\
  (forall o b, append_gnss_place_auth o = Ok b -> length b = 12%nat) /\
  (forall o b, append_ext_serial o = Ok b -> length b = 8%nat) /\
  (forall o m b, append_ext_serial_as_string o m = Ok b -> length b = m) /\
  (forall x b, append_activity_change x = Ok b -> length b = 2%nat) /\
  (forall x b, append_spec_cond x = Ok b -> length b = 5%nat) /\
  (forall n b, append_full_card_number (Some n) = Ok b ->
     (fcn_type n = 3 -> forall d, fcn_driver n = Some d -> plain_there 14 (di_number d)) ->
     (fcn_type n = 4 \/ fcn_type n = 6 -> forall o, fcn_owner n = Some o ->
        plain_there 13 (oi_number o) /\ plain_there 1 (oi_consecutive o) /\
        plain_there 1 (oi_replacement o) /\ plain_there 1 (oi_renewal o)) ->
     length b = 18%nat /\ forall g c, append_card_number_gen (Some (mkCNG (Some n) g)) = Ok c -> length c = 19%nat).
Proof.
  assert (MY : forall o b, append_month_year o = Ok b -> length b = 2%nat).
  { unfold append_month_year. intros o b E. inv_bind E. inv_ok. destruct (_ <? _)%nat; [|inv_ok; reflexivity].
    unfold raw_canvas in E0. destruct (Nat.eqb_spec (length (my_raw (odflt (mkMY [] 0 0) o))) 2) as [L|L]; [|discriminate E0]. inv_ok. size. }
  assert (P : forall n o b, plain_there n o -> append_ia5 o = Ok b -> Z.of_nat (length b) = n).
  { intros n o b (s & -> & L) E. exact (ia5_size s n b E L). }
  repeat match goal with |- _ /\ _ => split end.
  - exact time_size.
  - exact date_size.
  - exact csv_size.
  - exact MY.
  - unfold append_control_type. intros o b E. inv_bind E. now inv_ok.
  - exact append_odometer_length.
  - exact geo_size.
  - exact gnss_size.
  - intros [r|] b; cbn [append_gnss_place_auth]; intros E; [|inv_ok; reflexivity].
    inv_bind E. inv_bind E. inv_ok. rewrite !app_length, geo_size, (time_size _ _ E0). reflexivity.
  - intros [e|] b; cbn [append_ext_serial]; intros E; [|discriminate E]. inv_bind E. inv_bind E. inv_ok.
    rewrite !app_length, to_be_length, (MY _ _ E0). reflexivity.
  - intros o m b E. unfold append_ext_serial_as_string in E. destruct o as [e|]; [|discriminate E]. cbv zeta in E. inv_bind E. inv_bind E. inv_ok.
    rewrite app_length, firstn_length, zeros_length. enough (length (if es_manufacturer e =? 0 then a0 else set_byte a0 7 (u8 (es_manufacturer e))) = 8%nat) by lia.
    set (c0 := if es_serial e =? 0 then _ else _) in *. assert (L0 : length c0 = 8%nat) by (subst c0; destruct (_ =? 0); size; reflexivity).
    set (c1 := if (2 <=? _)%nat then _ else _) in *. assert (L1 : length c1 = 8%nat) by (subst c1; destruct (2 <=? _)%nat; size; rewrite ?L0; lia).
    assert (L2 : length a0 = 8%nat). { destruct (_ =? ENUM_UNSPECIFIED); [now inv_ok|]. inv_bind E1. inv_ok. size. }
    destruct (es_manufacturer e =? 0); size.
  - unfold append_activity_change. intros x b E. do 3 inv_bind E. inv_ok. apply to_be_length.
  - exact condition_size.
  - intros n b E D O.
    assert (L : forall b, append_full_card_number (Some n) = Ok b -> length b = 18%nat).
    { clear b E. intros b E. cbn [append_full_card_number] in E. inv_bind E. inv_bind E. inv_ok. cbn [length]. do 2 f_equal.
      unfold EQ_DRIVER_CARD, EQ_WORKSHOP_CARD, EQ_COMPANY_CARD in E1.
      destruct (Z.eqb_spec (fcn_type n) 3) as [T|T].
      - destruct (fcn_driver n) as [d|]; [|now inv_ok]. apply bind_ok in E1 as (b1 & B1 & E1). inv_ok. rewrite app_length. cbn [append_driver_id] in B1.
        apply (P 14) in B1; [cbn; lia|now apply D].
      - destruct (Z.eqb_spec (fcn_type n) 4) as [T4|T4], (Z.eqb_spec (fcn_type n) 6) as [T6|T6]; cbn [orb] in E1; try (now inv_ok);
          (destruct (fcn_owner n) as [o|]; [|now inv_ok]; cbn [append_owner_id] in E1; destruct (O ltac:(tauto) o eq_refl) as (P1 & P2 & P3 & P4);
           apply bind_ok in E1 as (b1 & B1 & E1); apply bind_ok in E1 as (b2 & B2 & E1); apply bind_ok in E1 as (b3 & B3 & E1); apply bind_ok in E1 as (b4 & B4 & E1);
           inv_ok; rewrite !app_length; apply (P 13) in B1; [|exact P1]; apply (P 1) in B2; [|exact P2]; apply (P 1) in B3; [|exact P3]; apply (P 1) in B4; [|exact P4]; lia). }
    split; [exact (L b E)|]. intros g c Ec. cbn [append_card_number_gen cng_number] in Ec. inv_bind Ec. inv_bind Ec. inv_ok.
    rewrite app_length, (L _ E0). reflexivity.
Qed.

(** Without texts some files are written nevertheless, and too short: what is written
    their reader refuses.  The texts that are there declare the size of a card. *)
Definition only_authority : driving_licence :=
  mkDL (Some (mkSV None 2 (Some 35) [68; 86; 76; 65])) 17 None.
Definition no_controller : control_activity :=
  mkCA true [] None (Some (mkTs 1700000000 0)) (Some (mkCNG (Some (mkFCN 3 17 None None)) 1))
    (Some (mkVR 17 (Some (mkSV None 2 (Some 13) [65; 66; 49])))) None None.
Definition no_approval : icc :=
  mkIcc 2 (Some (mkES 77 None 3 5)) None 9 (Some (mkEmb (Some (mkIA5 None (Some 2) [71; 66])) (Some (mkIA5 None (Some 2) [48; 49])) 4)) [1; 2].
Definition no_first_names : identification :=
  mkIdent 1 (Some (mkIC 17 CN_none (Some (mkSV None 2 (Some 35) [68])) None None None))
    (Some (mkIH (Some (mkSV None 2 (Some 35) [83])) None None (Some (mkIA5 None (Some 2) [101; 110])))).

Theorem C120_sizes_refuted :
  (exists x b, append_content S_licence x = Ok b /\ text_there 35 (dl_authority x) /\ dl_number x = None /\
     forall cm, unmarshal_driving_licence cm b = fail) /\
  (exists x b, append_content S_control x = Ok b /\ ca_valid x = true /\ control_number x = None /\
     forall cm, unmarshal_control_activity cm b = fail) /\
  (exists x b, append_content S_icc x = Ok b /\ icc_approval x = None /\ unmarshal_icc b = fail) /\
  (exists x b, append_content S_identification x = Ok b /\
     (exists h, ident_holder_part x = Some h /\ ih_first_names h = None /\ text_there 35 (ih_surname h)) /\
     forall cm, unmarshal_identification cm b = fail).
Proof.
  split; [|split; [|split]].
  - exists only_authority. eexists. split; [vm_compute; reflexivity|]. split; [eexists; split; reflexivity|]. split; [reflexivity|].
    intros cm. reflexivity.
  - exists no_controller. eexists. split; [vm_compute; reflexivity|]. split; [reflexivity|]. split; [reflexivity|]. intros cm. reflexivity.
  - exists no_approval. eexists. split; [vm_compute; reflexivity|]. split; reflexivity.
  - exists no_first_names. eexists. split; [vm_compute; reflexivity|]. split.
    + eexists. split; [reflexivity|]. split; [reflexivity|]. eexists. split; reflexivity.
    + intros cm. reflexivity.
Qed.

(** Messages that are written in the size of a card: a licence with both texts; the use of
    no vehicle; the same card as above with an approval number, and without an embedder. *)
Example C120_applies :
  (exists b, append_content S_licence (mkDL (dl_authority only_authority) 17 (Some (mkIA5 None (Some 16) [49; 50]))) = Ok b /\
     length b = 53%nat) /\
  (exists b, append_content S_usage (mkCU None None) = Ok b /\ length b = 19%nat) /\
  (exists b, append_content S_icc (mkIcc 2 (icc_serial no_approval) (Some (mkIA5 None (Some 8) [101; 49])) 9 None [1; 2]) = Ok b /\
     length b = 25%nat) /\
  (exists b, append_card_number_gen (Some (mkCNG (Some (mkFCN 3 17 (Some (mkDI (Some (mkIA5 None (Some 14) [49; 50])))) None)) 2)) = Ok b /\
     length b = 19%nat) /\
  (exists b, append_content S2_conditions (mkCond2 (zeros 12) 1 [mkSC None 2 0]) = Ok b /\ length b = 12%nat).
Proof.
  split; [|split; [|split; [|split]]]; eexists; (split; [vm_compute; reflexivity|reflexivity]).
Qed.
