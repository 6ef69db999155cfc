(** Decode-then-encode facts for the records of CardRecords.v. *)

From Verif Require Import Base Enums DDScalar Utf8 DDString DDRecord Chunks Scanner CardRecords
  P_Scalar Props_Scalar P_Utf8 P_String Field P_Basic P_Scanner.

Lemma sub_app_skip (a b : bytes) i n : length a = i -> sub (a ++ b) i n = firstn n b.
Proof. intros E. unfold sub. now rewrite skipn_app_exact. Qed.

Lemma canvas_ok n d : (0 < n)%nat -> length d = n -> raw_canvas_nonempty n d = Ok d.
Proof.
  intros N L. unfold raw_canvas_nonempty, raw_canvas. rewrite L, Nat.eqb_refl.
  destruct (Nat.ltb_spec 0 n); [reflexivity|lia].
Qed.

Lemma copy_same d i j n : (j = i + n)%nat -> (j <= length d)%nat -> copy_into d i j (sub d i n) = d.
Proof.
  intros -> H. replace n with (i + n - i)%nat at 2 by lia. apply copy_into_same; lia.
Qed.

Lemma odometer_back d i : bytes_ok d -> (i + 3 <= length d)%nat -> append_odometer (be (sub d i 3)) = sub d i 3.
Proof.
  intros H L. apply odometer_round_trip; [now apply bytes_ok_sub|now apply sub_length].
Qed.

Lemma place_enum_back T b :
  In T all_enum_tables -> coded_proper T = true -> byte_ok b ->
  place_enum_byte T (fst (unmarshal_enum_or_unrecognized T b)) (snd (unmarshal_enum_or_unrecognized T b)) = b.
Proof.
  intros I C B. unfold unmarshal_enum_or_unrecognized, place_enum_byte.
  destruct (unmarshal_enum T b) as [v|e|] eqn:E; cbn [fst snd].
  - destruct (unmarshal_enum_coded T b v C E) as [_ N].
    destruct (Z.eqb_spec v ENUM_UNRECOGNIZED); [contradiction|].
    apply marshal_unmarshal_or_zero; auto.
  - cbn. unfold u8. apply Z.mod_small. exact B.
  - now apply unmarshal_enum_no_panic in E.
Qed.

Lemma set_same d i : (i < length d)%nat -> set_byte d i (nth i d 0) = d.
Proof. intros H. apply set_byte_same; auto. Qed.

(** ** Places *)

Lemma place_implements : implements unmarshal_place append_place (f_id 10).
Proof.
  intros d H L. cbn in L. unfold unmarshal_place. rewrite eq_guard by exact L.
  use_field time_implements d 0%nat 4%nat; [|discriminate].
  split; [reflexivity|]. unfold append_place.
  cbn [pl_raw pl_time pl_entry pl_entry_unrecognized pl_country pl_country_unrecognized pl_region pl_odometer].
  rewrite canvas_ok by (auto; lia). cbn [bind]. rewrite W. cbn [f_id f_w bind].
  rewrite (copy_same d 0 4 4) by lia.
  rewrite !place_enum_back by (try in_tables; try reflexivity; apply nth_byte_ok; auto; lia).
  rewrite !set_same by lia. rewrite odometer_back by (auto; lia).
  rewrite (copy_same d 7 10 3) by lia. reflexivity.
Qed.

Lemma geo_implements : implements unmarshal_geo (fun g => Ok (append_geo (Some g))) (f_id 6).
Proof.
  intros d H L. cbn in L. destruct (unmarshal_geo d) as [g|e|] eqn:E.
  - split; [reflexivity|]. cbn. f_equal. apply geo_round_trip; auto.
  - unfold unmarshal_geo in E. rewrite L in E. discriminate.
  - unfold unmarshal_geo in E. rewrite L in E. discriminate.
Qed.

Lemma gnss_place_implements :
  implements unmarshal_gnss_place (fun g => append_gnss_place (Some g)) (f_id 11).
Proof.
  intros d H L. cbn in L. unfold unmarshal_gnss_place. rewrite eq_guard by exact L.
  use_field time_implements d 0%nat 4%nat; [|discriminate].
  use_field geo_implements d 5%nat 6%nat; [|discriminate].
  split; [reflexivity|]. unfold append_gnss_place. cbn [gp_time gp_accuracy gp_geo].
  rewrite W. cbn [f_id f_w bind]. apply Ok_inj in W0. rewrite W0.
  pose proof (nth_byte_ok d 4 H ltac:(lia)) as B. unfold byte_ok in B.
  destruct (Z.ltb_spec (nth 4 d 0) 0); [lia|]. rewrite Z.gtb_ltb.
  destruct (Z.ltb_spec 255 (nth 4 d 0)); [lia|]. cbn [orb negb guard bind].
  rewrite u8_nth by (auto; lia). f_equal. rewrite !sub_join by reflexivity.
  apply sub_whole. exact L.
Qed.

Lemma gnss_place_auth_implements :
  implements unmarshal_gnss_place_auth (fun g => append_gnss_place_auth (Some g)) (f_id 12).
Proof.
  intros d H L. cbn in L. unfold unmarshal_gnss_place_auth. rewrite eq_guard by exact L.
  use_field time_implements d 0%nat 4%nat; [|discriminate].
  use_field geo_implements d 5%nat 6%nat; [|discriminate].
  apply Ok_inj in W0.
  assert (J : sub d 0 4 ++ sub d 4 1 ++ sub d 5 6 ++ sub d 11 1 = d).
  { rewrite !sub_join by reflexivity. apply sub_whole. exact L. }
  pose proof (nth_byte_ok d 11 H ltac:(lia)) as B. unfold byte_ok in B.
  destruct (unmarshal_enum position_authentication_status_table (nth 11 d 0)) as [v|e|] eqn:E.
  - split; [reflexivity|]. unfold append_gnss_place_auth. cbn [gpa_time gpa_accuracy gpa_geo gpa_auth gpa_auth_unrecognized].
    rewrite W, W0. cbn [f_id f_w bind].
    destruct (unmarshal_enum_coded position_authentication_status_table _ v eq_refl E) as [_ N].
    destruct (Z.eqb_spec v ENUM_UNRECOGNIZED); [contradiction|].
    rewrite (marshal_unmarshal_enum position_authentication_status_table _ _ eq_refl E). cbn [bind].
    rewrite u8_nth by (auto; lia). rewrite <- (sub_1 d 11) by lia. now rewrite J.
  - split; [reflexivity|]. unfold append_gnss_place_auth. cbn [gpa_time gpa_accuracy gpa_geo gpa_auth gpa_auth_unrecognized].
    rewrite W, W0. cbn [f_id f_w bind].
    destruct (Z.eqb_spec ENUM_UNRECOGNIZED ENUM_UNRECOGNIZED); [|contradiction]. cbn [bind].
    rewrite !u8_nth by (auto; lia). now rewrite J.
  - now apply unmarshal_enum_no_panic in E.
Qed.

Lemma place_g2_implements : implements unmarshal_place_g2 append_place_g2 (f_id 21).
Proof.
  intros d H L. cbn in L. unfold unmarshal_place_g2. rewrite eq_guard by exact L.
  use_field time_implements d 0%nat 4%nat; [|discriminate].
  use_field gnss_place_implements d 10%nat 11%nat; [|discriminate].
  split; [reflexivity|]. unfold append_place_g2.
  cbn [pl2_raw pl2_time pl2_entry pl2_entry_unrecognized pl2_country pl2_country_unrecognized pl2_region pl2_odometer pl2_gnss].
  rewrite canvas_ok by (auto; lia). cbn [bind]. rewrite W. cbn [f_id f_w bind].
  rewrite (copy_same d 0 4 4) by lia.
  rewrite !place_enum_back by (try in_tables; try reflexivity; apply nth_byte_ok; auto; lia).
  rewrite !set_same by lia. rewrite odometer_back by (auto; lia).
  rewrite (copy_same d 7 10 3) by lia. rewrite W0. cbn [f_id f_w bind].
  rewrite (copy_same d 10 21 11) by lia. reflexivity.
Qed.

(** ** Vehicles *)

Definition vehicle_fields := [f_id 14; f_vreg; f_if 2 decimalb].

Lemma f_vreg_len d d' : length d = 15%nat -> f_w f_vreg d = Ok d' -> length d' = 15%nat.
Proof.
  intros L. unfold f_vreg. rewrite fseq_w. cbn [w_at f_nation f_string f_fun f_len f_w].
  destruct (nation_knownb _); [|discriminate]. cbn [bind]. intros E. apply Ok_inj in E. subst d'.
  unfold w_string. rewrite !app_length. cbn [length]. rewrite skipn_length, !sub_length by lia. reflexivity.
Qed.

Lemma card_vehicle_implements cm :
  implements (unmarshal_card_vehicle cm) append_card_vehicle (fseq vehicle_fields).
Proof.
  intros d H L. change (length d = 31%nat) in L. unfold unmarshal_card_vehicle. rewrite eq_guard by exact L.
  rewrite fseq_acc, fseq_w. unfold vehicle_fields.
  cbn [acc_at w_at f_id f_if f_len f_acc f_w Nat.add bind andb].
  change (f_len f_vreg) with 15%nat. cbn [Nat.add]. rewrite vreg_acc. cbn [andb].
  use_field time_implements d 6%nat 4%nat; [|discriminate].
  use_field time_implements d 10%nat 4%nat; [|discriminate].
  use_field (vreg_implements cm) d 14%nat 15%nat; [|discriminate].
  use_field (bcd_implements 2 ltac:(lia)) d 29%nat 2%nat; [|cbn [f_if f_acc] in Q; now rewrite Q].
  cbn [f_if f_acc] in A2. rewrite A2. split; [reflexivity|].
  unfold append_card_vehicle.
  cbn [cv_raw cv_odo_begin cv_odo_end cv_first_use cv_last_use cv_reg cv_counter].
  rewrite canvas_ok by (auto; lia). cbn [bind]. rewrite W, W0, W1, W2. cbn [f_id f_if f_w bind].
  rewrite !odometer_back by (auto; lia).
  rewrite (copy_same d 0 3 3), (copy_same d 3 6 3), (copy_same d 6 10 4), (copy_same d 10 14 4) by lia.
  destruct (f_w f_vreg (sub d 14 15)) as [v|e|] eqn:E; cbn [bind]; auto.
  apply f_vreg_len in E; [|apply sub_length; lia]. f_equal.
  rewrite (copy_into_eq d 14 29 v) by (rewrite ?E; lia).
  assert (S : sub d 29 2 = skipn 29 d).
  { unfold sub. apply firstn_all2. rewrite skipn_length. lia. }
  assert (P : firstn 14 d ++ v ++ skipn 29 d = sub d 0 14 ++ v ++ sub d 29 2) by (rewrite S; reflexivity).
  rewrite P, app_nil_r. set (c := sub d 0 14 ++ v ++ sub d 29 2).
  assert (Lc : length c = 31%nat) by (unfold c; rewrite !app_length, E, !sub_length by lia; reflexivity).
  assert (T : sub d 29 2 = sub c 29 2).
  { unfold c. rewrite app_assoc, sub_app_skip by (rewrite app_length, E, sub_length by lia; reflexivity).
    rewrite firstn_all2; auto. rewrite sub_length; lia. }
  rewrite T. apply (copy_same c 29 31 2); lia.
Qed.

(** The VIN loses trailing zero bytes and blanks; the gap is filled with blanks. *)
Definition w_vin (d : bytes) : bytes := pad_spaces 17 (firstn 17 (trim_right_bytes vin_cut d)).
Definition f_vin : field := f_fun 17 w_vin.

Lemma trim_right_le cut l : (length (trim_right_bytes cut l) <= length l)%nat.
Proof.
  induction l as [|b l IH]; cbn [trim_right_bytes]; auto.
  destruct (trim_right_bytes cut l) as [|c t]; [destruct (cut b); simpl; lia|simpl in *; lia].
Qed.

Lemma trim_right_ok cut l : bytes_ok l -> bytes_ok (trim_right_bytes cut l).
Proof.
  induction l as [|b l IH]; cbn [trim_right_bytes]; auto. rewrite bytes_ok_cons. intros [Hb Hl].
  specialize (IH Hl). destruct (trim_right_bytes cut l) as [|c t].
  - destruct (cut b); auto. apply bytes_ok_cons; auto.
  - apply bytes_ok_cons; auto.
Qed.

Lemma trim_right_cut cut l k c : cut c = true -> trim_right_bytes cut (l ++ repeat c k) = trim_right_bytes cut l.
Proof.
  intros C. induction l as [|b l IH]; cbn [app trim_right_bytes].
  - induction k as [|k IH]; cbn [repeat trim_right_bytes]; auto. rewrite IH, C. reflexivity.
  - now rewrite IH.
Qed.

Lemma trim_right_idem cut l : trim_right_bytes cut (trim_right_bytes cut l) = trim_right_bytes cut l.
Proof.
  induction l as [|b l IH]; cbn [trim_right_bytes]; auto.
  destruct (trim_right_bytes cut l) as [|c t] eqn:E.
  - destruct (cut b) eqn:C; cbn [trim_right_bytes]; auto. now rewrite C.
  - cbn [trim_right_bytes] in *. rewrite IH. reflexivity.
Qed.

Lemma good_vin : good f_vin.
Proof.
  apply good_fun. intros d H L. unfold w_vin.
  pose proof (trim_right_le vin_cut d) as T. set (t := trim_right_bytes vin_cut d) in *.
  rewrite (firstn_all2 t) by lia. split; [apply pad_spaces_length; lia|]. split.
  - unfold pad_spaces. apply bytes_ok_app. split; [apply trim_right_ok; auto|].
    apply bytes_ok_repeat. unfold byte_ok; lia.
  - unfold pad_spaces at 2. rewrite trim_right_cut by reflexivity. unfold t.
    rewrite trim_right_idem. rewrite firstn_all2 by (fold t; lia). reflexivity.
Qed.

Definition vehicle_g2_fields := [f_id 14; f_vreg; f_if 2 decimalb; f_vin].

(** Painting the middle of a canvas. *)
Lemma paint_mid (a b c v : bytes) i j :
  length a = i -> length v = (j - i)%nat -> length b = (j - i)%nat -> (i <= j)%nat ->
  copy_into (a ++ b ++ c) i j v = a ++ v ++ c.
Proof.
  intros La Lv Lb IJ.
  rewrite copy_into_eq by (rewrite ?app_length; lia).
  rewrite firstn_app_exact by auto. do 2 f_equal.
  rewrite app_assoc. apply skipn_app_exact. rewrite app_length. lia.
Qed.

Lemma card_vehicle_g2_implements cm :
  implements (unmarshal_card_vehicle_g2 cm) append_card_vehicle_g2 (fseq vehicle_g2_fields).
Proof.
  intros d H L. change (length d = 48%nat) in L. unfold unmarshal_card_vehicle_g2. rewrite eq_guard by exact L.
  rewrite fseq_acc, fseq_w. unfold vehicle_g2_fields.
  cbn [acc_at w_at f_id f_if f_vin f_fun f_len f_acc f_w Nat.add bind andb].
  change (f_len f_vreg) with 15%nat. cbn [Nat.add]. rewrite vreg_acc. cbn [andb].
  use_field time_implements d 6%nat 4%nat; [|discriminate].
  use_field time_implements d 10%nat 4%nat; [|discriminate].
  use_field (vreg_implements cm) d 14%nat 15%nat; [|discriminate].
  use_field (bcd_implements 2 ltac:(lia)) d 29%nat 2%nat; [|cbn [f_if f_acc] in Q; now rewrite Q].
  cbn [f_if f_acc] in A2. rewrite A2. split; [reflexivity|].
  unfold append_card_vehicle_g2.
  cbn [cv2_raw cv2_odo_begin cv2_odo_end cv2_first_use cv2_last_use cv2_reg cv2_counter cv2_vin].
  rewrite canvas_ok by (auto; lia). cbn [bind]. rewrite W, W0, W1, W2. cbn [f_id f_if f_w bind].
  rewrite !odometer_back by (auto; lia).
  rewrite (copy_same d 0 3 3), (copy_same d 3 6 3), (copy_same d 6 10 4), (copy_same d 10 14 4) by lia.
  destruct (f_w f_vreg (sub d 14 15)) as [v|e|] eqn:E; cbn [bind]; auto.
  apply f_vreg_len in E; [|apply sub_length; lia]. f_equal. rewrite app_nil_r.
  fold (w_vin (sub d 31 17)).
  assert (Lv : length (w_vin (sub d 31 17)) = 17%nat).
  { unfold w_vin. apply pad_spaces_length. rewrite firstn_length. lia. }
  assert (D : d = sub d 0 14 ++ sub d 14 15 ++ sub d 29 2 ++ sub d 31 17).
  { rewrite !sub_join by reflexivity. symmetry. apply sub_whole. exact L. }
  rewrite D at 1.
  rewrite (paint_mid (sub d 0 14) (sub d 14 15) _ v) by (rewrite ?sub_length; lia).
  rewrite app_assoc.
  rewrite (paint_mid _ (sub d 29 2) (sub d 31 17) (sub d 29 2)) by (rewrite ?app_length, ?sub_length; lia).
  rewrite app_assoc. rewrite <- (app_nil_r (sub d 31 17)) at 1.
  rewrite (paint_mid _ (sub d 31 17) [] (w_vin (sub d 31 17))) by (rewrite ?app_length, ?sub_length; lia).
  rewrite app_nil_r, <- !app_assoc. reflexivity.
Qed.

(** ** GNSS, vehicle units, conditions *)

Definition f_odo : field :=
  F 3 (fun _ => true) (fun d => if be d <=? 999999 then Ok d else fail).

Lemma good_odo : good f_odo.
Proof.
  intros d H L _. cbn in *. destruct (Z.leb_spec (be d) 999999).
  - split; [discriminate|]. intros d' E. apply Ok_inj in E; subst.
    destruct (Z.leb_spec (be d') 999999); [auto|lia].
  - split; discriminate.
Qed.

Definition gnss_fields := [f_id 15; f_odo].

Lemma gnss_record_implements : implements unmarshal_gnss_record append_gnss_record (fseq gnss_fields).
Proof.
  intros d H L. change (length d = 18%nat) in L. unfold unmarshal_gnss_record. rewrite eq_guard by exact L.
  rewrite fseq_acc, fseq_w. unfold gnss_fields. cbn [acc_at w_at f_id f_odo f_len f_acc f_w Nat.add bind andb].
  use_field time_implements d 0%nat 4%nat; [|discriminate].
  use_field gnss_place_implements d 4%nat 11%nat; [|discriminate].
  unfold unmarshal_odometer. rewrite sub_length by lia. cbn [Nat.eqb guard bind].
  split; [reflexivity|]. unfold append_gnss_record. cbn [gr_time gr_place gr_odometer].
  rewrite W, W0. cbn [f_id f_w bind]. rewrite Z.gtb_ltb.
  pose proof (be_range (sub d 15 3) (bytes_ok_sub _ _ _ H)) as R.
  destruct (Z.ltb_spec (be (sub d 15 3)) 0); [lia|].
  destruct (Z.ltb_spec 999999 (be (sub d 15 3))); destruct (Z.leb_spec (be (sub d 15 3)) 999999); try lia;
    cbn [orb negb guard bind]; auto.
  rewrite odometer_back by (auto; lia). rewrite app_nil_r, app_assoc, (sub_join d 0 4 11) by reflexivity.
  reflexivity.
Qed.

Lemma unit_record_implements :
  implements (fun c => unmarshal_unit_record (c, c)) append_unit_record (f_id 10).
Proof.
  intros d H L. cbn in L. unfold unmarshal_unit_record. cbn [fst snd]. rewrite eq_guard by exact L.
  use_field time_implements d 0%nat 4%nat; [|discriminate].
  split; [reflexivity|]. unfold append_unit_record. cbn [ur_time ur_manufacturer ur_device ur_version].
  rewrite W. cbn [f_id f_w bind]. pose proof (nth_byte_ok d 4 H ltac:(lia)) as B. unfold byte_ok in B.
  rewrite Z.gtb_ltb. destruct (Z.ltb_spec (nth 4 d 0) 0); [lia|]. destruct (Z.ltb_spec 255 (nth 4 d 0)); [lia|].
  rewrite !sub_length by lia. cbn [orb negb guard bind Nat.ltb Nat.leb].
  rewrite !pad_copy_exact by (rewrite sub_length; lia). rewrite u8_nth by (auto; lia).
  rewrite !sub_join by reflexivity. f_equal. apply sub_whole. exact L.
Qed.

Lemma spec_cond_implements : implements unmarshal_spec_cond append_spec_cond (f_id 5).
Proof.
  intros d H L. cbn in L. unfold unmarshal_spec_cond. rewrite eq_guard by exact L.
  use_field time_implements d 0%nat 4%nat; [|discriminate].
  assert (J : sub d 0 4 ++ sub d 4 1 = d).
  { rewrite !sub_join by reflexivity. apply sub_whole. exact L. }
  destruct (unmarshal_enum specific_condition_type_table (nth 4 d 0)) as [v|e|] eqn:E.
  - split; [reflexivity|]. unfold append_spec_cond. cbn [sc_time sc_type sc_unrecognized].
    rewrite W. cbn [f_id f_w bind].
    destruct (unmarshal_enum_coded specific_condition_type_table _ v eq_refl E) as [_ N].
    destruct (Z.eqb_spec v ENUM_UNRECOGNIZED); [contradiction|].
    rewrite (marshal_unmarshal_enum specific_condition_type_table _ _ eq_refl E). cbn [bind].
    rewrite <- (sub_1 d 4) by lia. now rewrite J.
  - split; [reflexivity|]. unfold append_spec_cond. cbn [sc_time sc_type sc_unrecognized].
    rewrite W. cbn [f_id f_w bind]. destruct (Z.eqb_spec ENUM_UNRECOGNIZED ENUM_UNRECOGNIZED); [|contradiction].
    cbn [bind]. rewrite u8_nth by (auto; lia). now rewrite J.
  - now apply unmarshal_enum_no_panic in E.
Qed.

(** ** Events and faults (in the absence of aliasing effects) *)

Definition event_fields := [f_enum event_fault_type_table; f_id 4; f_id 4; f_vreg].

Definition f_event : field :=
  F 24 (fun d => if be (sub d 1 4) =? 0 then true else acc_at event_fields d 0)
    (fun d => if be (sub d 1 4) =? 0 then Ok d else w_at event_fields d 0).

Lemma event_fields_good : Forall good event_fields.
Proof. unfold event_fields. goods. Qed.

Lemma good_event : good f_event.
Proof.
  intros d H L A. cbn [f_event f_len f_acc f_w] in *.
  destruct (Z.eqb_spec (be (sub d 1 4)) 0) as [Z0|NZ].
  - split; [discriminate|]. intros d' E. apply Ok_inj in E; subst d'. rewrite Z0. cbn. auto.
  - destruct (w_at_good event_fields d event_fields_good H) as [P Q]; auto. { rewrite L. apply Nat.le_refl. }
    split; auto. intros d' E. destruct (Q d' E) as (L' & H' & A' & W').
    change (flen event_fields) with 24%nat in L'. split; auto. split; auto.
    assert (S : sub d' 1 4 = sub d 1 4).
    { unfold event_fields in E. cbn [w_at f_enum f_if f_id f_w f_len bind Nat.add] in E.
      change (f_len f_vreg) with 15%nat in E.
      destruct (f_w f_vreg (sub d 9 15)); [|discriminate|discriminate]. cbn [bind] in E.
      apply Ok_inj in E. subst d'.
      rewrite sub_app_skip by (apply sub_length; lia). apply firstn_app_exact. apply sub_length; lia. }
    rewrite S. destruct (Z.eqb_spec (be (sub d 1 4)) 0); [contradiction|]. auto.
Qed.

Lemma alias_same cm d v : unmarshal_vreg cm d = Ok v -> alias_vreg v (sub d 1 14) = v.
Proof.
  intros U. unfold unmarshal_vreg in U. inv_bind U. inv_bind U. apply Ok_inj in U. subst v.
  unfold alias_vreg. cbn [vr_nation vr_number option_map]. do 2 f_equal.
  match goal with E : unmarshal_string_value _ _ = Ok _ |- _ => revert E end.
  unfold unmarshal_string_value. destruct (_ <? _)%nat; [discriminate|]. intros E1. apply Ok_inj in E1. subst.
  reflexivity.
Qed.

Lemma event_implements cm :
  implements (fun c => unmarshal_event cm (c, c)) append_event f_event.
Proof.
  intros d H L. cbn in L. unfold unmarshal_event. cbn [fst snd f_event f_acc f_w].
  destruct (Z.eqb_spec (be (sub d 1 4)) 0) as [Z0|NZ].
  - split; reflexivity.
  - rewrite long_guard by lia. unfold event_fields.
    cbn [acc_at w_at f_enum f_if f_id f_len f_acc f_w Nat.add andb bind].
    rewrite !nth_sub by lia. cbn [Nat.add]. change (f_len f_vreg) with 15%nat. rewrite vreg_acc.
    destruct (unmarshal_enum event_fault_type_table (nth 0 d 0)) as [t|e|] eqn:Et; cbn [bind];
      [|reflexivity|now apply unmarshal_enum_no_panic in Et].
    use_field time_implements d 1%nat 4%nat; [|discriminate].
    use_field time_implements d 5%nat 4%nat; [|discriminate].
    use_field (vreg_implements cm) d 9%nat 15%nat; [|discriminate].
    split; [reflexivity|]. unfold append_event. cbn [ev_valid ev_raw ev_type ev_begin ev_end ev_vehicle negb].
    replace (sub d 10 14) with (sub (sub d 9 15) 1 14) by (apply sub_sub; lia).
    rewrite (alias_same cm _ _ Heqr1). rewrite W, W0, W1. cbn [f_id f_w bind].
    rewrite (marshal_unmarshal_or_zero event_fault_type_table (nth 0 d 0) t) by (auto; in_tables).
    rewrite sub_1 by lia.
    destruct (f_w f_vreg (sub d 9 15)); cbn [bind]; auto. rewrite app_nil_r. reflexivity.
Qed.
