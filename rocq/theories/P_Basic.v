(** Decode-then-encode facts for the fixed-size card files (CardBasic.v). *)

From Verif Require Import Base Enums DDScalar Utf8 DDString DDRecord RawTypes Infer CardBasic
  P_Scalar Props_Scalar P_Utf8 P_String Field.

Lemma enum_wf T : In T all_enum_tables -> enum_wfb T = true.
Proof. intros H. pose proof all_enum_tables_wf as W. rewrite forallb_forall in W. auto. Qed.

Ltac enum_wf := apply enum_wf; unfold all_enum_tables; simpl; tauto.

Lemma enum_implements T : In T all_enum_tables ->
  implements (fun d => unmarshal_enum T (nth 0 d 0)) (fun v => let* c := marshal_enum T v in Ok [c]) (f_enum T).
Proof.
  intros I d H L. cbn in *. destruct d as [|b [|]]; try (simpl in L; lia). cbn [nth] in *.
  destruct (unmarshal_enum T b) as [v|e|] eqn:E; auto.
  - split; auto. rewrite (marshal_unmarshal_enum T b v); auto using enum_wf.
  - now apply unmarshal_enum_no_panic in E.
Qed.

(** Table entries with a code are numbered neither UNSPECIFIED nor UNRECOGNIZED. *)
Definition coded_proper (T : enum_table) : bool :=
  forallb (fun e : Z * option Z => match snd e with
     | Some c => negb (fst e =? 0) && negb (fst e =? 1) | None => true end) T.

Lemma unmarshal_enum_coded T b v : coded_proper T = true -> unmarshal_enum T b = Ok v -> v <> 0 /\ v <> 1.
Proof.
  intros C E. apply unmarshal_enum_sound in E. unfold coded_proper in C.
  rewrite forallb_forall in C. specialize (C _ E). cbn in C. lia.
Qed.

Lemma marshal_unmarshal_or_zero T b v :
  In T all_enum_tables -> unmarshal_enum T b = Ok v -> marshal_enum_or_zero T v = b.
Proof.
  intros I E. unfold marshal_enum_or_zero.
  rewrite (marshal_unmarshal_enum T b v); auto using enum_wf.
Qed.

Ltac in_tables := unfold all_enum_tables; simpl; tauto.

Ltac goods :=
  repeat (apply Forall_cons; [solve [auto using good_id, good_if, good_nation, good_csv, good_date,
     good_month_year, good_vreg | apply good_if | apply good_string; lia ]|]); try apply Forall_nil.

(** ** IC *)

Definition ic_fields := [f_id 4; f_id 4].

Lemma ic_codec : codec unmarshal_ic (fun x => append_ic (Some x))
  (fun d => (flen ic_fields <=? length d)%nat && acc_at ic_fields d 0) (fun d => w_at ic_fields d 0).
Proof.
  apply codec_ge; [|goods|].
  - intros d H L. change (flen ic_fields) with 8%nat in L. unfold unmarshal_ic.
    destruct (Nat.ltb_spec (length d) 8); [lia|]. cbn [negb guard bind]. split; [reflexivity|].
    unfold append_ic. cbn [ic_serial ic_references].
    rewrite !pad_copy_exact by (rewrite sub_length; lia). cbn. rewrite app_nil_r. reflexivity.
  - intros d L. change (flen ic_fields) with 8%nat in L. unfold unmarshal_ic.
    destruct (Nat.ltb_spec (length d) 8); [|lia]. eexists. reflexivity.
Qed.

(** ** ICC *)

Definition icc_fields :=
  [f_enum clock_stop_mode_table; f_id 4; f_month_year; f_enum equipment_type_table; f_id 1;
   f_id 8; f_id 1; f_id 2; f_id 2; f_id 1; f_id 2].

Lemma u8_nth d i : bytes_ok d -> (i < length d)%nat -> [u8 (nth i d 0)] = sub d i 1.
Proof.
  intros H L. rewrite sub_1 by auto. pose proof (nth_byte_ok d i H L) as B. unfold byte_ok in B.
  unfold u8. f_equal. apply Z.mod_small. lia.
Qed.

Lemma ext_serial_string_eq a my my' t c m :
  bytes_ok a -> length a = 4%nat -> length my' = 2%nat ->
  append_month_year (Some my) = Ok my' ->
  t <> 0 -> marshal_enum equipment_type_table t = Ok c -> byte_ok m ->
  append_ext_serial_as_string (Some (mkES (be a) (Some my) t m)) 8 = Ok (a ++ my' ++ [c] ++ [m]).
Proof.
  intros Ha La Lm Em Nt Et Hm. unfold append_ext_serial_as_string.
  cbn [es_serial es_month_year es_type es_manufacturer]. rewrite Em. cbn [bind].
  rewrite Lm. cbn [Nat.leb]. destruct (Z.eqb_spec t ENUM_UNSPECIFIED); [contradiction|].
  rewrite Et. cbn [bind].
  destruct my' as [|y0 [|y1 [|]]]; try (simpl in Lm; lia).
  assert (C : (if be a =? 0 then zeros 8 else copy_into (zeros 8) 0 4 (to_be 4 (be a))) = a ++ zeros 4).
  { destruct (Z.eqb_spec (be a) 0) as [Z0|NZ].
    - rewrite <- (to_be_be 4 a) by auto. rewrite Z0. reflexivity.
    - rewrite to_be_be by auto.
      destruct a as [|? [|? [|? [|? [|]]]]]; try (simpl in La; lia). reflexivity. }
  rewrite C. destruct a as [|a0 [|a1 [|a2 [|a3 [|]]]]]; try (simpl in La; lia).
  unfold byte_ok in Hm. unfold u8. rewrite (Z.mod_small m 256) by lia.
  destruct (Z.eqb_spec m 0) as [->|]; reflexivity.
Qed.

Lemma icc_codec : codec unmarshal_icc (fun x => append_icc (Some x))
  (fun d => (flen icc_fields <=? length d)%nat && acc_at icc_fields d 0) (fun d => w_at icc_fields d 0).
Proof.
  apply codec_ge; [|goods|].
  - intros d H L. change (flen icc_fields) with 25%nat in L. unfold unmarshal_icc.
    destruct (Nat.ltb_spec (length d) 25); [lia|]. cbn [negb guard bind].
    rewrite !nth_sub by lia. rewrite !sub_sub by lia. cbn [Nat.add].
    unfold icc_fields. cbn [acc_at w_at f_enum f_id f_if f_month_year f_fun f_len f_acc f_w Nat.add bind].
    rewrite !nth_sub by lia. cbn [Nat.add andb].
    destruct (unmarshal_enum clock_stop_mode_table (nth 0 d 0)) as [cs|e|] eqn:Ecs; cbn [bind];
      [|reflexivity|now apply unmarshal_enum_no_panic in Ecs].
    use_field month_year_implements d 5%nat 2%nat; [|discriminate].
    destruct (unmarshal_enum equipment_type_table (nth 7 d 0)) as [t|e|] eqn:Et; cbn [bind];
      [|reflexivity|now apply unmarshal_enum_no_panic in Et].
    use_field (ia5_implements 8 ltac:(lia)) d 9%nat 8%nat; [|discriminate].
    use_field (ia5_implements 2 ltac:(lia)) d 18%nat 2%nat; [|discriminate].
    use_field (ia5_implements 2 ltac:(lia)) d 20%nat 2%nat; [|discriminate].
    split; [reflexivity|].
    unfold append_icc. cbn [odflt icc_clock_stop icc_serial icc_approval icc_personaliser icc_embedder icc_ic_identifier].
    rewrite (marshal_unmarshal_enum clock_stop_mode_table _ _ eq_refl Ecs). cbn [bind].
    cbn [f_month_year f_fun f_w f_id] in W, W0, W1, W2.
    pose proof (nth_byte_ok d 8 H ltac:(lia)) as B8.
    rewrite (ext_serial_string_eq (sub d 1 4) _ (w_month_year (sub d 5 2)) _ (nth 7 d 0));
      auto using bytes_ok_sub; [| apply sub_length; lia
      | unfold w_month_year; destruct (decimalb _); [apply sub_length; lia|reflexivity]
      | now apply (unmarshal_enum_coded equipment_type_table (nth 7 d 0)); [reflexivity|]
      | apply (marshal_unmarshal_enum equipment_type_table _ _ eq_refl Et) ].
    cbn [bind]. rewrite W0. cbn [bind]. unfold append_embedder. cbn [em_country em_module em_manufacturer].
    rewrite W1, W2. cbn [bind]. rewrite !u8_nth by (auto; lia).
    rewrite (sub_1 d 0), (sub_1 d 7), (sub_1 d 8) by lia.
    rewrite <- !app_assoc, app_nil_r. reflexivity.
  - intros d L. change (flen icc_fields) with 25%nat in L. unfold unmarshal_icc.
    destruct (Nat.ltb_spec (length d) 25); [|lia]. eexists. reflexivity.
Qed.

(** ** Card download *)

Lemma short_guard {X} (d : bytes) n (k : res X) :
  (length d < n)%nat -> exists e, (let* _ := guard (negb (length d <? n)%nat) in k) = Err e.
Proof. intros H. destruct (Nat.ltb_spec (length d) n); [|lia]. eexists; reflexivity. Qed.

Lemma long_guard {X} (d : bytes) n (k : res X) :
  (n <= length d)%nat -> (let* _ := guard (negb (length d <? n)%nat) in k) = k.
Proof. intros H. destruct (Nat.ltb_spec (length d) n); [lia|]. reflexivity. Qed.

Lemma eq_guard {X} (d : bytes) n (k : res X) :
  length d = n -> (let* _ := guard (length d =? n)%nat in k) = k.
Proof. intros H. rewrite H, Nat.eqb_refl. reflexivity. Qed.

Lemma neq_guard {X} (d : bytes) n (k : res X) :
  length d <> n -> exists e, (let* _ := guard (length d =? n)%nat in k) = Err e.
Proof. intros H. destruct (Nat.eqb_spec (length d) n); [lia|]. eexists; reflexivity. Qed.

Definition card_download_fields := [f_id 4].

Lemma card_download_codec :
  codec unmarshal_card_download (fun x => append_card_download (Some x))
  (fun d => (flen card_download_fields <=? length d)%nat && acc_at card_download_fields d 0)
  (fun d => w_at card_download_fields d 0).
Proof.
  apply codec_ge; [|goods|].
  - intros d H L. unfold unmarshal_card_download. rewrite long_guard by exact L.
    change (4 <= length d)%nat in L.
    use_field time_implements d 0%nat 4%nat; [|discriminate].
    split; [reflexivity|]. unfold append_card_download. rewrite W. cbn. rewrite app_nil_r. reflexivity.
  - intros d L. apply short_guard. exact L.
Qed.

(** ** Current usage *)

Section WithCharmaps.
Variable cm : Z -> Z -> Z.

Definition current_usage_fields := [f_id 4; f_vreg].

Lemma vreg_acc d : f_acc f_vreg d = true.
Proof. reflexivity. Qed.

Lemma current_usage_codec :
  codec (unmarshal_current_usage cm) (fun x => append_current_usage (Some x))
  (fun d => (flen current_usage_fields <=? length d)%nat && acc_at current_usage_fields d 0)
  (fun d => w_at current_usage_fields d 0).
Proof.
  apply codec_ge; [|goods|].
  - intros d H L. unfold unmarshal_current_usage. rewrite long_guard by exact L.
    change (19 <= length d)%nat in L.
    use_field time_implements d 0%nat 4%nat; [|discriminate].
    use_field (vreg_implements cm) d 4%nat 15%nat; [|discriminate].
    split; [reflexivity|]. unfold append_current_usage. cbn [cu_time cu_vehicle].
    rewrite W, W0. cbn [f_id f_w bind]. unfold current_usage_fields. cbn [w_at f_id f_w f_len bind Nat.add].
    change (f_len f_vreg) with 15%nat.
    destruct (f_w f_vreg (sub d 4 15)); [|reflexivity|reflexivity].
    cbn [bind]. rewrite app_nil_r. reflexivity.
  - intros d L. apply short_guard. exact L.
Qed.

(** ** Driving licence *)

Definition driving_licence_fields := [f_string 36; f_nation; f_id 16].

Lemma nation_write b :
  (let* c := marshal_enum nation_numeric_table
               match unmarshal_enum nation_numeric_table b with
               | Ok n => n | _ => ENUM_UNRECOGNIZED end in Ok [c]) =
  if nation_knownb b then Ok [b] else fail.
Proof.
  unfold nation_knownb. destruct (unmarshal_enum nation_numeric_table b) as [v|e|] eqn:E; cbn [is_ok].
  - rewrite (marshal_unmarshal_enum nation_numeric_table b v eq_refl E). reflexivity.
  - reflexivity.
  - now apply unmarshal_enum_no_panic in E.
Qed.

Lemma driving_licence_codec :
  codec (unmarshal_driving_licence cm) (fun x => append_driving_licence (Some x))
  (fun d => (flen driving_licence_fields <=? length d)%nat && acc_at driving_licence_fields d 0)
  (fun d => w_at driving_licence_fields d 0).
Proof.
  apply codec_ge; [|goods|].
  - intros d H L. unfold unmarshal_driving_licence. rewrite long_guard by exact L.
    change (53 <= length d)%nat in L.
    use_field (string_implements cm 36 ltac:(lia)) d 0%nat 36%nat; [|discriminate].
    use_field (ia5_implements 16 ltac:(lia)) d 37%nat 16%nat; [|discriminate].
    split; [reflexivity|]. unfold append_driving_licence. cbn [dl_authority dl_nation dl_number].
    rewrite W, W0. cbn [f_id f_w f_string f_fun bind]. unfold driving_licence_fields.
    cbn [w_at f_id f_w f_len f_string f_fun f_nation bind Nat.add].
    rewrite nth_sub, sub_1 by lia. cbn [Nat.add].
    pose proof (nation_write (nth 36 d 0)) as N.
    destruct (marshal_enum _ _) as [c|e|]; cbn [bind] in *.
    + destruct (nation_knownb _); [|discriminate]. apply Ok_inj in N. rewrite N. cbn [bind].
      rewrite app_nil_r. reflexivity.
    + destruct (nation_knownb _); [discriminate|]. rewrite N. reflexivity.
    + destruct (nation_knownb _); discriminate.
  - intros d L. apply short_guard. exact L.
Qed.

(** ** Control activity *)

Definition f_control : field := f_fun 1 (fun d => [Z.land (nth 0 d 0) 248]).
Definition control_fields := [f_control; f_id 4; f_id 18; f_vreg; f_id 4; f_id 4].

Definition w_control (d : bytes) : res bytes :=
  if be (sub d 1 4) =? 0 then Ok (if (length d =? 46)%nat then d else zeros 46)
  else w_at control_fields d 0.

Lemma land_248_sweep :
  forallb (fun b => (0 <=? Z.land b 248) && (Z.land b 248 <? 256)) (zrange 256) = true.
Proof. vm_compute. reflexivity. Qed.

Lemma good_control : good f_control.
Proof.
  apply good_fun. intros d H L. destruct d as [|b [|]]; try (simpl in L; lia). cbn [nth].
  rewrite bytes_ok_cons in H. destruct H as [Hb _]. unfold byte_ok in Hb.
  rewrite <- Z.land_assoc. split; [reflexivity|]. split; [|reflexivity].
  rewrite bytes_ok_cons. split; [|constructor]. unfold byte_ok.
  pose proof (sweep _ _ land_248_sweep b Hb) as S. cbv beta in S. lia.
Qed.

Lemma control_type_byte_sweep :
  forallb (fun b => match unmarshal_control_type [b] with
                    | Ok c => control_type_byte (Some c) =? Z.land b 248 | _ => false end) (zrange 256) = true.
Proof. vm_compute. reflexivity. Qed.

Lemma control_implements :
  implements unmarshal_control_type (fun c => Ok [control_type_byte (Some c)]) f_control.
Proof.
  intros d H L. destruct d as [|b [|]]; try (simpl in L; lia).
  rewrite bytes_ok_cons in H. destruct H as [Hb _].
  pose proof (sweep _ _ control_type_byte_sweep b Hb) as S. cbv beta in S.
  destruct (unmarshal_control_type [b]) as [c| |]; try discriminate. split; [reflexivity|].
  apply Z.eqb_eq in S. rewrite S. reflexivity.
Qed.

Lemma f_w_vreg_form d :
  match f_w f_vreg d with Ok a => True | Err _ => True | Panic => False end.
Proof.
  unfold f_vreg. rewrite fseq_w. cbn [w_at f_nation f_string f_fun f_len f_w].
  destruct (nation_knownb _); cbn; auto.
Qed.

Lemma control_activity_codec :
  codec (unmarshal_control_activity cm) (fun x => append_control_activity (Some x))
    (fun d => (46 <=? length d)%nat) w_control.
Proof.
  intros d H. unfold unmarshal_control_activity.
  destruct (Nat.ltb_spec (length d) 46) as [L|L]; cbn [negb guard bind].
  { destruct (Nat.leb_spec 46 (length d)); [lia|reflexivity]. }
  destruct (Nat.leb_spec 46 (length d)); [|lia].
  destruct (Z.eqb_spec (be (sub d 1 4)) 0) as [Z0|NZ].
  - unfold w_control. rewrite Z0. cbn [Z.eqb]. split; [reflexivity|]. split.
    { unfold append_control_activity. cbn [ca_valid ca_raw negb].
      destruct (Nat.eqb_spec (length d) 46); reflexivity. }
    split; [discriminate|]. intros d' E. apply Ok_inj in E; subst d'.
    destruct (Nat.eqb_spec (length d) 46) as [L'|L'].
    + rewrite L', Z0. cbn. repeat split; auto.
    + repeat split; auto using bytes_ok_zeros.
  - assert (Ect : is_ok (unmarshal_control_type (sub d 0 1)) = true).
    { unfold unmarshal_control_type. rewrite sub_length by lia. reflexivity. }
    use_field control_implements d 0%nat 1%nat; [|discriminate].
    use_field time_implements d 1%nat 4%nat; [|discriminate].
    use_field (ia5_implements 18 ltac:(lia)) d 5%nat 18%nat; [|discriminate].
    use_field (vreg_implements cm) d 23%nat 15%nat; [|discriminate].
    use_field time_implements d 38%nat 4%nat; [|discriminate].
    use_field time_implements d 42%nat 4%nat; [|discriminate].
    assert (EW : w_control d = w_at control_fields d 0).
    { unfold w_control. destruct (Z.eqb_spec (be (sub d 1 4)) 0); [contradiction|reflexivity]. }
    rewrite EW. split; [reflexivity|]. split.
    { unfold append_control_activity. cbn [ca_valid ca_raw ca_type ca_time ca_card ca_vehicle ca_begin ca_end negb cng_number].
      unfold append_full_card_number_as_string. cbn [fcn_type fcn_driver di_number].
      rewrite Z.eqb_refl. apply Ok_inj in W. rewrite W0, W1, W2, W3, W4. cbn [f_id f_w bind].
      unfold control_fields. cbn [w_at f_control f_fun f_id f_w f_len bind Nat.add].
      change (f_len f_vreg) with 15%nat. cbn [Nat.add]. rewrite W.
      destruct (f_w f_vreg (sub d 23 15)); [|reflexivity|reflexivity].
      cbn [bind]. rewrite app_nil_r. reflexivity. }
    destruct (w_at_good control_fields d) as [P Q']; auto.
    { unfold control_fields. repeat apply Forall_cons; auto using good_control, good_id, good_vreg. }
    split; auto. intros d' E. destruct (Q' d' E) as (L' & H' & _ & W').
    change (flen control_fields) with 46%nat in L'.
    split; auto. split; [lia|]. split; [rewrite L'; reflexivity|].
    unfold w_control. destruct (Z.eqb_spec (be (sub d' 1 4)) 0) as [Z'|_]; [|exact W'].
    exfalso. apply NZ. rewrite <- Z'. f_equal.
    unfold control_fields in E. cbn [w_at f_control f_fun f_id f_w f_len bind Nat.add] in E.
    change (f_len f_vreg) with 15%nat in E. cbn [Nat.add] in E.
    destruct (f_w f_vreg (sub d 23 15)); [|discriminate|discriminate]. cbn [bind] in E.
    apply Ok_inj in E. subst d'. symmetry.
    unfold sub at 1. cbn [app skipn]. apply firstn_app_exact. apply sub_length. lia.
Qed.

End WithCharmaps.

(** ** Application identification *)

Definition app_id_fields := [f_enum equipment_type_table; f_csv; f_id 1; f_id 1; f_id 2; f_id 2; f_id 1].

Lemma opt_byte_nth d i : bytes_ok d -> (i < length d)%nat -> opt_byte (Some (nth i d 0)) = sub d i 1.
Proof. intros. unfold opt_byte. cbn [odflt]. apply u8_nth; auto. Qed.

Lemma opt_u16_be d i : bytes_ok d -> (i + 2 <= length d)%nat -> opt_u16 (Some (be (sub d i 2))) = sub d i 2.
Proof.
  intros H L. unfold opt_u16. cbn [odflt]. pose proof (be_range (sub d i 2) (bytes_ok_sub _ _ _ H)) as R.
  rewrite sub_length in R by lia. change (256 ^ Z.of_nat 2) with 65536 in R.
  unfold u16. rewrite Z.mod_small by lia. apply to_be_be; [now apply bytes_ok_sub|now apply sub_length].
Qed.

Lemma app_id_codec : codec unmarshal_app_id (fun x => append_app_id (Some x))
  (fun d => (length d =? flen app_id_fields)%nat && acc_at app_id_fields d 0)
  (fun d => w_at app_id_fields d 0).
Proof.
  apply codec_eq; [|goods|].
  - intros d H L. unfold unmarshal_app_id. rewrite eq_guard by exact L.
    change (length d = 10%nat) in L. rewrite fseq_acc, fseq_w. unfold app_id_fields.
    cbn [acc_at w_at f_enum f_if f_id f_csv f_fun f_len f_acc f_w Nat.add bind].
    rewrite !nth_sub by lia. cbn [Nat.add andb].
    destruct (unmarshal_enum equipment_type_table (nth 0 d 0)) as [t|e|] eqn:Et; cbn [bind];
      [|reflexivity|now apply unmarshal_enum_no_panic in Et].
    use_field csv_implements d 1%nat 2%nat; [|discriminate].
    split; [reflexivity|]. unfold append_app_id. cbn [ai_type ai_version ai_card_type ai_driver].
    rewrite W. cbn [f_csv f_fun f_w bind]. rewrite Z.eqb_refl.
    cbn [ad_events ad_faults ad_activity_length ad_vehicles ad_places].
    rewrite (marshal_unmarshal_or_zero equipment_type_table (nth 0 d 0) t) by (auto; in_tables).
    rewrite !opt_byte_nth, !opt_u16_be by (auto; lia). rewrite (sub_1 d 0) by lia.
    rewrite app_nil_r. reflexivity.
  - intros d L. apply neq_guard. exact L.
Qed.

Definition app_id_g2_fields :=
  [f_enum equipment_type_table; f_csv; f_id 1; f_id 1; f_id 2; f_id 2; f_id 2; f_id 2; f_id 2; f_id 2].

Lemma app_id_g2_codec : codec unmarshal_app_id_g2 (fun x => append_app_id_g2 (Some x))
  (fun d => (length d =? flen app_id_g2_fields)%nat && acc_at app_id_g2_fields d 0)
  (fun d => w_at app_id_g2_fields d 0).
Proof.
  apply codec_eq; [|goods|].
  - intros d H L. unfold unmarshal_app_id_g2. rewrite eq_guard by exact L.
    change (length d = 17%nat) in L. rewrite fseq_acc, fseq_w. unfold app_id_g2_fields.
    cbn [acc_at w_at f_enum f_if f_id f_csv f_fun f_len f_acc f_w Nat.add bind].
    rewrite !nth_sub by lia. cbn [Nat.add andb].
    destruct (unmarshal_enum equipment_type_table (nth 0 d 0)) as [t|e|] eqn:Et; cbn [bind];
      [|reflexivity|now apply unmarshal_enum_no_panic in Et].
    use_field csv_implements d 1%nat 2%nat; [|discriminate].
    split; [reflexivity|]. unfold append_app_id_g2. cbn [ai2_type ai2_version ai2_card_type ai2_driver].
    rewrite W. cbn [f_csv f_fun f_w bind]. rewrite Z.eqb_refl.
    cbn [ad2_events ad2_faults ad2_activity_length ad2_vehicles ad2_places ad2_gnss ad2_conditions ad2_units].
    rewrite (marshal_unmarshal_or_zero equipment_type_table (nth 0 d 0) t) by (auto; in_tables).
    rewrite !opt_byte_nth, !opt_u16_be by (auto; lia). rewrite (sub_1 d 0) by lia.
    rewrite app_nil_r. reflexivity.
  - intros d L. apply neq_guard. exact L.
Qed.

Definition app_id_v2_fields := [f_id 1; f_id 1; f_id 1; f_id 1].

Lemma app_id_v2_codec : codec unmarshal_app_id_v2 (fun x => append_app_id_v2 (Some x))
  (fun d => (flen app_id_v2_fields <=? length d)%nat && acc_at app_id_v2_fields d 0)
  (fun d => w_at app_id_v2_fields d 0).
Proof.
  apply codec_ge; [|goods|].
  - intros d H L. unfold unmarshal_app_id_v2. rewrite long_guard by exact L.
    change (4 <= length d)%nat in L. split; [reflexivity|].
    unfold append_app_id_v2. cbn [av2_card_type av2_driver odflt]. rewrite Z.eqb_refl.
    cbn [v2_border v2_load v2_load_type v2_config].
    unfold app_id_v2_fields. cbn [w_at f_id f_len f_w Nat.add bind].
    rewrite <- !u8_nth by (auto; lia). reflexivity.
  - intros d L. apply short_guard. exact L.
Qed.
