(** Every number in the message of an accepted file lies in the range that its
    bytes can hold.  [numbers], [vu_numbers] and [raw_numbers] list the numbers with
    their ranges. *)

From Verif Require Import Base Enums Chunks DDScalar P_Scalar Utf8 P_Utf8 DDString P_String DDRecord Props_String.
From Verif Require Import Scanner P_Scanner RawTypes RawCard P_RawCard Infer CardBasic CardRecords P_Records CardIdent.
From Verif Require Import CardActivity Asn1 Cert P_Cert DriverCard P_Driver Vu P_Vu Verify Api P_Dump Props_RawCard Props_Dump Props_Driver.
From Verif Require Import Props_Framed Props_Text.
From Verif Require Props_Vu Props_Records Props_Download.

(** ** Where the numbers are

    All fields of a number or enumeration type in the messages of proto
    wayplatform.connect.tachograph, as (least, value, greatest).  Those not named
    here are never set by the code. *)

Definition number : Type := Z * Z * Z.
Definition within (n : number) : Prop := let '(lo, v, hi) := n in lo <= v <= hi.

Definition upto (hi v : Z) : list number := [(0, v, hi)].
Definition opt_upto (hi : Z) (o : option Z) : list number := match o with Some v => upto hi v | None => [] end.

Definition BYTE : Z := 255.
Definition WORD : Z := 65535.
Definition ODOMETER : Z := 16777215.

(** Times: whole seconds after 1970 in 32 bits; zero is no time. *)
Definition n_time (o : option timestamp) : list number :=
  match o with Some t => [(1, ts_seconds t, 4294967295); (0, ts_nanos t, 0)] | None => [] end.
(** In certificates zero is a time. *)
Definition n_cert_time (o : option timestamp) : list number :=
  match o with Some t => [(0, ts_seconds t, 4294967295); (0, ts_nanos t, 0)] | None => [] end.
(** Two nibbles each, which need not be decimal. *)
Definition n_date (o : option date) : list number :=
  match o with Some d => upto 16665 (date_year d) ++ upto 165 (date_month d) ++ upto 165 (date_day d) | None => [] end.
Definition n_month (o : option month_year) : list number :=
  match o with Some m => upto 99 (my_month m) ++ upto 2099 (my_year m) | None => [] end.
(** Four decimal digits *)
Definition n_bcd (o : option bcd_string) : list number :=
  match o with Some b => upto 9999 (bcd_value b) ++ [(2, bcd_length b, 2)] | None => [] end.
Definition n_csv (o : option csv) : list number :=
  match o with Some v => upto 165 (csv_major v) ++ upto 165 (csv_minor v) | None => [] end.
(** Three bytes, two's complement *)
Definition n_geo (o : option geo) : list number :=
  match o with Some g => [(-8388608, geo_latitude g, 8388607); (-8388608, geo_longitude g, 8388607)] | None => [] end.

(** Texts: the encoding and the length, here with the length in the file *)
Definition n_text (n : Z) (o : option string_value) : list number :=
  match o with Some s => upto 14 (sv_encoding s) ++ match sv_length s with Some l => upto n l | None => [] end | None => [] end.
Definition n_ascii (n : Z) (o : option ia5) : list number :=
  match o with Some s => opt_upto n (ia5_length s) | None => [] end.
(** 58 is the greatest number of NationNumeric, 21 of EquipmentType, and so on. *)
Definition n_nation (v : Z) := upto 58 v.
Definition n_equipment (v : Z) := upto 21 v.
Definition n_plate (o : option vreg) : list number :=
  match o with Some v => n_nation (DDString.vr_nation v) ++ n_text 13 (DDString.vr_number v) | None => [] end.

Definition n_owner (x : owner_id) : list number :=
  n_ascii 13 (oi_number x) ++ n_ascii 1 (oi_consecutive x) ++ n_ascii 1 (oi_replacement x) ++ n_ascii 1 (oi_renewal x).
(** The issuing state is whatever byte was there.  [n] is the length of a driver's
    number. *)
Definition n_full_number (n : Z) (o : option full_card_number) : list number :=
  match o with
  | Some c =>
      n_equipment (fcn_type c) ++ upto BYTE (fcn_state c) ++
      match fcn_driver c with Some x => n_ascii n (di_number x) | None => [] end ++
      match fcn_owner c with Some x => n_owner x | None => [] end
  | None => []
  end.
Definition n_card_number (n : card_number) : list number :=
  match n with
  | CN_none => []
  | CN_driver x => n_ascii 14 (dn_number x) ++ n_ascii 1 (dn_replacement x) ++ n_ascii 1 (dn_renewal x)
  | CN_owner x => n_owner x
  end.

Definition n_serial (o : option ext_serial) : list number :=
  match o with
  | Some e => upto 4294967295 (es_serial e) ++ n_month (es_month_year e) ++ n_equipment (es_type e) ++ upto BYTE (es_manufacturer e)
  | None => []
  end.
Definition n_icc (x : icc) : list number :=
  upto 7 (icc_clock_stop x) ++ n_serial (icc_serial x) ++ n_ascii 8 (icc_approval x) ++ upto BYTE (icc_personaliser x) ++
  match icc_embedder x with Some e => n_ascii 2 (em_country e) ++ n_ascii 2 (em_module e) ++ upto BYTE (em_manufacturer e) | None => [] end.

Definition n_app_id (x : app_id) : list number :=
  opt_upto 21 (ai_type x) ++ n_csv (ai_version x) ++ [(1, ai_card_type x, 1)] ++
  match ai_driver x with
  | Some d => opt_upto BYTE (ad_events d) ++ opt_upto BYTE (ad_faults d) ++ opt_upto WORD (ad_activity_length d) ++
              opt_upto WORD (ad_vehicles d) ++ opt_upto BYTE (ad_places d)
  | None => []
  end.
Definition n_app_id_g2 (x : app_id_g2) : list number :=
  opt_upto 21 (ai2_type x) ++ n_csv (ai2_version x) ++ [(1, ai2_card_type x, 1)] ++
  match ai2_driver x with
  | Some d => opt_upto BYTE (ad2_events d) ++ opt_upto BYTE (ad2_faults d) ++ opt_upto WORD (ad2_activity_length d) ++
              opt_upto WORD (ad2_vehicles d) ++ opt_upto WORD (ad2_places d) ++ opt_upto WORD (ad2_gnss d) ++
              opt_upto WORD (ad2_conditions d) ++ opt_upto WORD (ad2_units d)
  | None => []
  end.
Definition n_counts (o : option app_v2_counts) : list number :=
  match o with
  | Some c => upto BYTE (v2_border c) ++ upto BYTE (v2_load c) ++ upto BYTE (v2_load_type c) ++ upto BYTE (v2_config c)
  | None => []
  end.
Definition n_app_v2 (x : app_id_v2) : list number :=
  [(1, av2_card_type x, 1)] ++ n_counts (av2_driver x) ++ n_counts (av2_workshop x) ++
  opt_upto BYTE (av2_company x) ++ opt_upto BYTE (av2_control x).

Definition n_identification (x : identification) : list number :=
  [(1, ident_type x, 2)] ++
  match ident_card_part x with
  | Some c => n_nation (id_nation c) ++ n_card_number (id_number c) ++ n_text 35 (id_authority c) ++
              n_time (id_issue c) ++ n_time (id_begin c) ++ n_time (id_expiry c)
  | None => []
  end ++
  match ident_holder_part x with
  | Some h => n_text 35 (ih_surname h) ++ n_text 35 (ih_first_names h) ++ n_date (ih_birth h) ++ n_ascii 2 (ih_language h)
  | None => []
  end.

Definition n_event (e : event) : list number :=
  upto 48 (ev_type e) ++ n_time (ev_begin e) ++ n_time (ev_end e) ++ n_plate (ev_vehicle e).

(** The minute has eleven bits. *)
Definition n_change (c : activity_change) : list number :=
  upto 3 (ac_slot c) ++ upto 5 (ac_activity c) ++ upto 2047 (ac_minutes c).
Definition n_day (d : day) : list number :=
  upto WORD (day_prev d) ++ upto WORD (day_len d) ++ n_time (day_date d) ++ n_bcd (day_counter d) ++
  upto WORD (day_distance d) ++ flat_map n_change (day_changes d).
Definition n_activity (x : activity) : list number :=
  upto WORD (act_oldest x) ++ upto WORD (act_newest x) ++ flat_map n_day (act_days x).

Definition n_vehicle (v : card_vehicle) : list number :=
  upto ODOMETER (cv_odo_begin v) ++ upto ODOMETER (cv_odo_end v) ++ n_time (cv_first_use v) ++ n_time (cv_last_use v) ++
  n_plate (cv_reg v) ++ n_bcd (cv_counter v).
Definition n_vehicle_g2 (v : card_vehicle_g2) : list number :=
  upto ODOMETER (cv2_odo_begin v) ++ upto ODOMETER (cv2_odo_end v) ++ n_time (cv2_first_use v) ++ n_time (cv2_last_use v) ++
  n_plate (cv2_reg v) ++ n_bcd (cv2_counter v).

Definition n_gnss (o : option gnss_place) : list number :=
  match o with Some g => n_time (gp_time g) ++ upto BYTE (gp_accuracy g) ++ n_geo (gp_geo g) | None => [] end.
Definition n_place (p : place) : list number :=
  n_time (pl_time p) ++ upto 7 (pl_entry p) ++ opt_upto BYTE (pl_entry_unrecognized p) ++ n_nation (pl_country p) ++
  opt_upto BYTE (pl_country_unrecognized p) ++ upto ODOMETER (pl_odometer p).
Definition n_place_g2 (p : place_g2) : list number :=
  n_time (pl2_time p) ++ upto 7 (pl2_entry p) ++ opt_upto BYTE (pl2_entry_unrecognized p) ++ n_nation (pl2_country p) ++
  opt_upto BYTE (pl2_country_unrecognized p) ++ upto ODOMETER (pl2_odometer p) ++ n_gnss (pl2_gnss p).

Definition n_condition (c : spec_cond) : list number :=
  n_time (sc_time c) ++ upto 6 (sc_type c) ++ upto BYTE (sc_unrecognized c).
Definition n_gnss_record (r : gnss_record) : list number :=
  n_time (gr_time r) ++ n_gnss (gr_place r) ++ upto ODOMETER (gr_odometer r).
Definition n_unit (r : unit_record) : list number := n_time (ur_time r) ++ upto BYTE (ur_manufacturer r).

Definition n_control (x : control_activity) : list number :=
  n_time (ca_time x) ++
  match ca_card x with Some g => n_full_number 18 (cng_number g) ++ [(1, cng_generation g, 2)] | None => [] end ++
  n_plate (ca_vehicle x) ++ n_time (ca_begin x) ++ n_time (ca_end x).

Definition n_ecc (x : ecc_cert) : list number :=
  upto BYTE (ecc_cpi x) ++ n_cert_time (ecc_from x) ++ n_cert_time (ecc_to x).

Definition numbers (s : slot) : content s -> list number :=
  match s return content s -> list number with
  | S_icc => n_icc
  | S_ic => fun _ => []
  | S_app_id => n_app_id
  | S2_app_id => n_app_id_g2
  | S_licence | S2_licence => fun x => n_text 35 (dl_authority x) ++ n_nation (dl_nation x) ++ n_ascii 16 (dl_number x)
  | S_identification | S2_identification => n_identification
  | S_events | S2_events | S_faults | S2_faults => flat_map n_event
  | S_activity | S2_activity => n_activity
  | S_vehicles => fun x => upto WORD (vs_newest x) ++ flat_map n_vehicle (vs_records x)
  | S2_vehicles => fun x => upto WORD (vs2_newest x) ++ flat_map n_vehicle_g2 (vs2_records x)
  | S_places => fun x => upto BYTE (ps_newest x) ++ flat_map n_place (ps_records x)
  | S2_places => fun x => upto WORD (ps2_newest x) ++ flat_map n_place_g2 (ps2_records x)
  | S_usage | S2_usage => fun x => n_time (cu_time x) ++ n_plate (cu_vehicle x)
  | S_control | S2_control => n_control
  | S_conditions => fun x => flat_map n_condition (co_records x)
  | S2_conditions => fun x => upto WORD (co2_newest x) ++ flat_map n_condition (co2_records x)
  | S_download | S2_download => n_time
  | S2_units => fun x => upto WORD (uu_newest x) ++ flat_map n_unit (uu_records x)
  | S2_gnss => fun x => upto WORD (gps_newest x) ++ flat_map n_gnss_record (gps_records x)
  | S2_app_v2 => n_app_v2
  | S_card_cert | S_ca_cert => fun x => n_cert_time (rsa_eov x)
  | S2_ma_cert | S2_sign_cert | S2_ca_cert | S2_link_cert => n_ecc
  end.

(** Vehicle units *)
Definition n_lock (l : company_lock) : list number :=
  n_time (cl_in l) ++ n_time (cl_out l) ++ n_text 35 (cl_name l) ++ n_text 35 (cl_address l) ++ n_full_number 14 (cl_card l).
Definition n_vu_control (c : vu_control) : list number :=
  n_time (vc_time c) ++ n_full_number 14 (vc_card c) ++ n_time (vc_begin c) ++ n_time (vc_end c).
Definition n_download (a : download_activity) : list number :=
  n_time (da_time a) ++ n_full_number 14 (da_card a) ++ n_text 35 (da_name a).
Definition n_overview (o : overview_gen1) : list number :=
  n_ascii 17 (ov_vin o) ++ n_plate (ov_reg o) ++ n_time (ov_time o) ++
  match ov_period o with Some (a, b) => n_time a ++ n_time b | None => [] end ++
  upto 15 (ov_driver_slot o) ++ upto 15 (ov_codriver_slot o) ++ flat_map n_download (ov_downloads o) ++
  flat_map n_lock (ov_locks o) ++ flat_map n_vu_control (ov_controls o).
Definition n_insertion (r : card_iw) : list number :=
  match iw_holder r with Some h => n_text 35 (hn_surname h) ++ n_text 35 (hn_first_names h) | None => [] end ++
  n_full_number 14 (iw_card r) ++ n_date (iw_expiry r) ++ n_time (iw_insertion r) ++ upto ODOMETER (iw_odo_insertion r) ++
  upto 3 (iw_slot r) ++ n_time (iw_withdrawal r) ++ upto ODOMETER (iw_odo_withdrawal r) ++
  match iw_previous r with Some p => n_plate (pv_reg p) ++ n_time (pv_withdrawal p) | None => [] end.
Definition n_vu_place (p : vu_place) : list number :=
  n_time (vp_time p) ++ upto 7 (vp_type p) ++ n_nation (vp_country p) ++ upto ODOMETER (vp_odometer p).
Definition n_activities (a : activities_gen1) : list number :=
  n_time (ac_date a) ++ upto ODOMETER (ac_odometer a) ++ flat_map n_insertion (ac_iw a) ++ flat_map n_change (ac_changes a) ++
  flat_map n_vu_place (ac_places a) ++ flat_map n_condition (ac_conditions a).
Definition vu_numbers (v : vu_file) : list number :=
  match v with
  | VuGen1 f => match g1_overview f with Some o => n_overview o | None => [] end ++ flat_map n_activities (g1_activities f)
  | VuGen2V1 _ | VuGen2V2 _ => []
  end.

(** Raw cards *)
Definition raw_numbers (r : raw_record) : list number :=
  upto 16777215 (rr_tag r) ++ upto 40 (rr_file r) ++ [(1, rr_generation r, 2)] ++ [(1, rr_content r, 2)] ++ upto WORD (rr_length r).

(** ** Parts *)

Notation fits := (Forall within).

Lemma one lo v hi : lo <= v <= hi -> fits [(lo, v, hi)].
Proof. intros H. constructor; [exact H|constructor]. Qed.

Lemma upto_fits hi v : 0 <= v <= hi -> fits (upto hi v).
Proof. apply one. Qed.

Lemma nth_byte d i : bytes_ok d -> 0 <= nth i d 0 <= 255.
Proof.
  intros B. destruct (Nat.lt_ge_cases i (length d)) as [H|H].
  - pose proof (nth_byte_ok d i B H) as N. unfold byte_ok in N. lia.
  - rewrite nth_overflow by lia. lia.
Qed.

Lemma be_most d : bytes_ok d -> forall n, (length d <= n)%nat -> 0 <= be d <= 256 ^ Z.of_nat n - 1.
Proof.
  intros B n L. pose proof (be_range d B) as R.
  assert (256 ^ Z.of_nat (length d) <= 256 ^ Z.of_nat n) by (apply Z.pow_le_mono_r; lia). lia.
Qed.

Lemma be_sub_most d i n : bytes_ok d -> 0 <= be (sub d i n) <= 256 ^ Z.of_nat n - 1.
Proof. intros B. apply be_most; [now apply bytes_ok_sub|]. unfold sub. rewrite firstn_length. lia. Qed.

Lemma enum_most T hi b v : forallb (fun p => (0 <=? fst p) && (fst p <=? hi)) T = true -> unmarshal_enum T b = Ok v -> 0 <= v <= hi.
Proof.
  induction T as [|[n [p|]] T IH]; cbn [unmarshal_enum forallb fst]; intros H E; [discriminate| |];
    apply andb_true_iff in H as [H1 H2]; [|now apply IH].
  destruct (p =? b); [|now apply IH]. apply Ok_inj in E. subst v. lia.
Qed.

Lemma enum_fits T hi b v : forallb (fun p => (0 <=? fst p) && (fst p <=? hi)) T = true -> unmarshal_enum T b = Ok v -> fits (upto hi v).
Proof. intros H E. apply upto_fits. eapply enum_most; eauto. Qed.

Lemma enum_or_fits T hi b : 1 <= hi -> forallb (fun p => (0 <=? fst p) && (fst p <=? hi)) T = true ->
  fits (upto hi (match unmarshal_enum T b with Ok n => n | _ => ENUM_UNRECOGNIZED end)).
Proof.
  intros L H. destruct (unmarshal_enum T b) eqn:E; [eapply enum_fits; eauto| |]; apply upto_fits; unfold ENUM_UNRECOGNIZED; lia.
Qed.

Lemma time_fits d t : bytes_ok d -> unmarshal_time d = Ok t -> fits (n_time t).
Proof.
  intros B E. unfold unmarshal_time in E. apply bind_ok in E as (u & L & E). apply guard_ok in L.
  apply Nat.eqb_eq in L. pose proof (be_most d B 4 ltac:(lia)) as R. change (256 ^ Z.of_nat 4 - 1) with 4294967295 in R.
  cbv zeta in E. destruct (Z.eqb_spec (be d) 0); apply Ok_inj in E; subst t; cbn [n_time ts_seconds ts_nanos]; [constructor|].
  constructor; [unfold within; lia|]. apply one. lia.
Qed.

Lemma div16 d i : bytes_ok d -> 0 <= nth i d 0 / 16 <= 15.
Proof. intros B. pose proof (nth_byte d i B). lia. Qed.
Lemma mod16 (z : Z) : 0 <= z mod 16 <= 15.
Proof. lia. Qed.

Lemma date_fits d x : bytes_ok d -> unmarshal_date d = Ok x -> fits (n_date (Some x)).
Proof.
  intros B E. unfold unmarshal_date in E. inv_bind E. apply Ok_inj in E. subst x. cbn [n_date date_year date_month date_day].
  pose proof (div16 d 0 B). pose proof (div16 d 1 B). pose proof (div16 d 2 B). pose proof (div16 d 3 B).
  pose proof (mod16 (nth 0 d 0)). pose proof (mod16 (nth 1 d 0)). pose proof (mod16 (nth 2 d 0)). pose proof (mod16 (nth 3 d 0)).
  repeat (apply Forall_app; split); apply upto_fits; lia.
Qed.

Lemma csv_fits d x : bytes_ok d -> unmarshal_csv d = Ok x -> fits (n_csv (Some x)).
Proof.
  intros B E. unfold unmarshal_csv in E. inv_bind E. apply Ok_inj in E. subst x. cbn [n_csv csv_major csv_minor].
  pose proof (div16 d 0 B). pose proof (div16 d 1 B). pose proof (mod16 (nth 0 d 0)). pose proof (mod16 (nth 1 d 0)).
  repeat (apply Forall_app; split); apply upto_fits; lia.
Qed.

Lemma decoded_bcd d v : bytes_ok d -> (length d = 2)%nat -> decode_bcd d = Ok v -> 0 <= v <= 9999.
Proof.
  intros B L E. unfold decode_bcd in E. rewrite L in E. cbn [Nat.eqb] in E.
  destruct (forallb _ _) eqn:Q; [|discriminate]. destruct (_ <=? _) in E; [|discriminate]. cbn [andb] in E. apply Ok_inj in E. subst v.
  destruct d as [|a [|b [|c d]]]; try discriminate L. cbn [nibbles flat_map] in *.
  assert (digits_ok (nibbles [a; b])) as D.
  { apply Forall_inv in B as A. apply Forall_inv_tail, Forall_inv in B. unfold byte_ok in *.
    cbn [nibbles] in *. cbn [forallb] in Q. repeat (apply andb_true_iff in Q as [? Q]).
    repeat constructor; lia. }
  pose proof (dec_val_range _ D) as R. rewrite nibbles_length in R. cbn [length] in R. change (10 ^ Z.of_nat (2 * 2)) with 10000 in R. 
  cbn [nibbles] in R. lia.
Qed.

Lemma bcd_fits d x : bytes_ok d -> (length d = 2)%nat -> unmarshal_bcd_string d = Ok x -> fits (n_bcd (Some x)).
Proof.
  intros B L E. unfold unmarshal_bcd_string in E. inv_bind E. apply bind_ok in E as (v & V & E). apply Ok_inj in E. subst x.
  apply decoded_bcd in V; auto. cbn [n_bcd bcd_value bcd_length]. apply Forall_app. split; [apply upto_fits|apply one; lia].
  unfold s32. rewrite Z.mod_small by lia. destruct (Z.ltb_spec v 2147483648); lia.
Qed.

Lemma month_fits d x : bytes_ok d -> unmarshal_month_year d = Ok x -> fits (n_month (Some x)).
Proof.
  intros B E. unfold unmarshal_month_year in E. apply bind_ok in E as (u & L & E). apply guard_ok in L. apply Nat.eqb_eq in L.
  destruct (decode_bcd d) as [v| |] eqn:V; [|apply Ok_inj in E; subst x; cbn [n_month my_month my_year]; apply Forall_app; split; apply upto_fits; lia|discriminate].
  apply decoded_bcd in V; auto.
  destruct (0 <? v); apply Ok_inj in E; subst x; cbn [n_month my_month my_year]; apply Forall_app; split; apply upto_fits; lia.
Qed.

Lemma int24_most d : bytes_ok d -> (length d <= 3)%nat -> -8388608 <= read_int24 d <= 8388607.
Proof.
  intros B L. pose proof (be_most d B 3 L) as R. change (256 ^ Z.of_nat 3 - 1) with 16777215 in R.
  unfold read_int24. generalize dependent (be d). intros v R. rewrite Z.testbit_odd, Z.shiftr_div_pow2 by lia.
  change (2 ^ 23) with 8388608.
  assert (Q : v / 8388608 = 0 \/ v / 8388608 = 1) by lia. destruct Q as [Q|Q]; rewrite Q; cbn [Z.odd]; [lia|].
  assert (E : Z.lor v 4278190080 = v + 4278190080).
  { change 4278190080 with (255 * 2 ^ 24). apply lor_low_high; lia. }
  rewrite E. unfold s32. rewrite Z.mod_small by lia. destruct (Z.ltb_spec (v + 4278190080) 2147483648); lia.
Qed.

Lemma geo_fits d x : bytes_ok d -> unmarshal_geo d = Ok x -> fits (n_geo (Some x)).
Proof.
  intros B E. unfold unmarshal_geo in E. inv_bind E. apply Ok_inj in E. subst x. cbn [n_geo geo_latitude geo_longitude].
  assert (H : forall i, -8388608 <= read_int24 (sub d i 3) <= 8388607).
  { intros i. apply int24_most; [now apply bytes_ok_sub|]. unfold sub. rewrite firstn_length. lia. }
  constructor; [apply H|]. apply one, H.
Qed.

Lemma encoding_most cp : 0 <= encoding_of_code_page cp <= 14.
Proof.
  assert (H : forall b, existsb (Z.eqb b) [1; 2; 3; 4; 5; 6; 7; 8; 9; 10; 11; 12; 13; 14] = true -> 0 <= b <= 14).
  { intros b H. apply existsb_exists in H as (x & I & H). cbn [In] in I. lia. }
  apply H. unfold encoding_of_code_page. clear H.
  repeat (match goal with |- context [match ?x with _ => _ end] => is_var x; destruct x end); reflexivity.
Qed.

Lemma text_fits cm d i n m s : (n = S m)%nat -> unmarshal_string_value cm (sub d i n) = Ok s -> fits (n_text (Z.of_nat m) (Some s)).
Proof.
  intros -> E. unfold unmarshal_string_value in E. destruct (_ <? 2)%nat; [discriminate|]. cbv zeta in E. apply Ok_inj in E. subst s.
  cbn [n_text sv_encoding sv_length]. apply Forall_app. split; apply upto_fits; [apply encoding_most|].
  rewrite skipn_length. unfold sub. rewrite firstn_length. lia.
Qed.

Lemma ascii_most d s n : unmarshal_ia5 d = Ok s -> (length d <= n)%nat -> fits (n_ascii (Z.of_nat n) (Some s)).
Proof.
  intros E L. unfold unmarshal_ia5 in E. destruct (_ =? 0)%nat; [discriminate|]. apply Ok_inj in E. subst s.
  cbn [n_ascii ia5_length opt_upto]. apply upto_fits. lia.
Qed.

Lemma ascii_fits d i n s : unmarshal_ia5 (sub d i n) = Ok s -> fits (n_ascii (Z.of_nat n) (Some s)).
Proof. intros E. apply (ascii_most _ _ _ E). unfold sub. rewrite firstn_length. lia. Qed.

Lemma plate_fits cm d v : unmarshal_vreg cm d = Ok v -> fits (n_plate (Some v)).
Proof.
  intros E. unfold unmarshal_vreg in E. inv_bind E. cbv zeta in E. apply bind_ok in E as (t & T & E). apply Ok_inj in E. subst v.
  cbn [n_plate DDString.vr_number DDString.vr_nation]. apply Forall_app. split; [apply enum_or_fits; [lia|reflexivity]|].
  apply (text_fits cm d 1 14 13); auto.
Qed.

(** Closes the goals about parts for which there is a hypothesis. *)
Ltac fit := repeat match goal with
  | |- fits (_ ++ _) => apply Forall_app; split
  | |- fits [] => constructor
  | H : unmarshal_time _ = Ok ?t |- fits (n_time ?t) => refine (time_fits _ _ _ H)
  | H : unmarshal_date _ = Ok ?t |- fits (n_date (Some ?t)) => refine (date_fits _ _ _ H)
  | H : unmarshal_csv _ = Ok ?t |- fits (n_csv (Some ?t)) => refine (csv_fits _ _ _ H)
  | H : unmarshal_month_year _ = Ok ?t |- fits (n_month (Some ?t)) => refine (month_fits _ _ _ H)
  | H : unmarshal_geo _ = Ok ?t |- fits (n_geo (Some ?t)) => refine (geo_fits _ _ _ H)
  | H : unmarshal_bcd_string _ = Ok ?t |- fits (n_bcd (Some ?t)) => refine (bcd_fits _ _ _ _ H)
  | H : unmarshal_string_value _ _ = Ok ?s |- fits (n_text 35 (Some ?s)) => exact (text_fits _ _ _ 36 35 _ eq_refl H)
  | H : unmarshal_ia5 (sub _ _ ?n) = Ok ?s |- fits (n_ascii _ (Some ?s)) => exact (ascii_fits _ _ n _ H)
  | H : unmarshal_vreg _ _ = Ok ?s |- fits (n_plate (Some ?s)) => exact (plate_fits _ _ _ H)
  | H : unmarshal_enum _ _ = Ok ?v |- fits (upto _ ?v) => refine (enum_fits _ _ _ _ _ H); reflexivity
  | H : unmarshal_enum _ _ = Ok ?v |- fits (n_nation ?v) => refine (enum_fits _ _ _ _ _ H); reflexivity
  | H : unmarshal_enum _ _ = Ok ?v |- fits (n_equipment ?v) => refine (enum_fits _ _ _ _ _ H); reflexivity
  | |- fits (n_nation (match unmarshal_enum _ _ with _ => _ end)) => apply enum_or_fits; [lia|reflexivity]
  | |- fits (upto _ (match unmarshal_enum _ _ with _ => _ end)) => apply enum_or_fits; [lia|reflexivity]
  | |- fits (opt_upto ?h (Some ?v)) => change (fits (upto h v))
  | |- fits (opt_upto ?h None) => constructor
  | |- fits (upto _ (nth _ _ 0)) => apply upto_fits, nth_byte
  | |- fits (upto _ (be (sub _ _ _))) => apply upto_fits, be_sub_most
  | |- bytes_ok (sub _ _ _) => apply bytes_ok_sub
  end; try assumption.

Lemma owner_fits d x : unmarshal_owner_id d = Ok x -> fits (n_owner x).
Proof.
  intros E. unfold unmarshal_owner_id in E. repeat inv_bind E. apply Ok_inj in E. subst x. unfold n_owner.
  cbn [oi_number oi_consecutive oi_replacement oi_renewal]. fit.
Qed.

Lemma full_number_fits d n : bytes_ok d -> unmarshal_full_card_number d = Ok n -> fits (n_full_number 14 (Some n)).
Proof.
  intros B E. unfold unmarshal_full_card_number in E. inv_bind E. apply bind_ok in E as (t & T & E). cbv zeta in E.
  destruct (t =? _).
  - apply bind_ok in E as (x & X & E). apply Ok_inj in E. subst n. unfold unmarshal_driver_id in X. repeat inv_bind X.
    apply Ok_inj in X. subst x. cbn [n_full_number fcn_type fcn_state fcn_driver fcn_owner di_number]. fit.
  - destruct (_ || _); [|discriminate]. apply bind_ok in E as (x & X & E). apply Ok_inj in E. subst n.
    cbn [n_full_number fcn_type fcn_state fcn_driver fcn_owner]. fit. now apply owner_fits in X.
Qed.

Lemma card_number_fits d t n : unmarshal_card_number d = Ok (t, n) -> 1 <= t <= 2 /\ fits (n_card_number n).
Proof.
  intros E. unfold unmarshal_card_number in E. cbv zeta in E.
  assert (O : forall r, (let* o := unmarshal_ia5 (sub d 0 13) in let* c := unmarshal_ia5 (sub d 13 1) in
      let* r := unmarshal_ia5 (sub d 14 1) in let* w := unmarshal_ia5 (sub d 15 1) in
      Ok (CARD_TYPE_WORKSHOP, CN_owner (mkOI (Some o) (Some c) (Some r) (Some w)))) = Ok r -> 1 <= fst r <= 2 /\ fits (n_card_number (snd r))).
  { intros r H. repeat inv_bind H. apply Ok_inj in H. subst r. cbn [fst snd n_card_number]. split; [unfold CARD_TYPE_WORKSHOP; lia|]. unfold n_owner.
    cbn [oi_number oi_consecutive oi_replacement oi_renewal]. fit. }
  destruct (unmarshal_ia5 (sub d 0 14)) eqn:I; try exact (O _ E).
  destruct (_ && _); [|exact (O _ E)]. apply Ok_inj in E. injection E as <- <-.
  split; [unfold CARD_TYPE_DRIVER; lia|]. cbn [n_card_number dn_number dn_replacement dn_renewal].
  fit.
  - destruct (unmarshal_ia5 (sub d 14 1)) eqn:J; cbn [n_ascii]; [exact (ascii_fits _ _ _ _ J)| |]; constructor.
  - destruct (unmarshal_ia5 (sub d 15 1)) eqn:J; cbn [n_ascii]; [exact (ascii_fits _ _ _ _ J)| |]; constructor.
Qed.

(** ** Lists *)

Lemma flat_fits {X} (f : X -> list number) l : Forall (fun x => fits (f x)) l -> fits (flat_map f l).
Proof. induction 1; cbn [flat_map]; [constructor|]. apply Forall_app. auto. Qed.

Lemma map_res_fits {A X} (un : A -> res X) (f : X -> list number) (P : A -> Prop) l xs :
  Forall P l -> (forall a x, P a -> un a = Ok x -> fits (f x)) -> map_res un l = Ok xs -> fits (flat_map f xs).
Proof.
  intros H U E. apply map_res_ok in E. apply flat_fits. induction E; constructor; apply Forall_cons_iff in H as [? ?]; eauto.
Qed.

Lemma collect_fits {A X} (un : A -> res X) (f : X -> list number) (P : A -> Prop) l :
  Forall P l -> (forall a x, P a -> un a = Ok x -> fits (f x)) -> fits (flat_map f (collect_ok un l)).
Proof.
  intros H U. induction H as [|a l Pa H IH]; cbn [collect_ok]; [constructor|]. destruct (un a) eqn:E; try constructor.
  cbn [flat_map]. apply Forall_app. eauto.
Qed.

(** Chunks of [n] bytes *)
Definition chunk (n : nat) (b : bytes) : Prop := bytes_ok b /\ length b = n.

Lemma chunks_of n d : (0 < n)%nat -> bytes_ok d -> Forall (chunk n) (chunks n d).
Proof.
  intros N B. apply Forall_forall. intros b I. split.
  - pose proof (chunks_ok n d N B) as C. rewrite Forall_forall in C. auto.
  - apply Props_Records.in_chunks in I as (i & L & ->); auto. unfold sub. rewrite firstn_length, skipn_length. lia.
Qed.

Lemma scanned_of n d l : (0 < n <= max_token_size)%nat -> bytes_ok d -> scan_fixed n d = Ok l -> Forall (fun p => chunk n (fst p)) l.
Proof.
  intros N B E. destruct (scan_fixed_chunks n d N) as (l' & E' & M). rewrite E in E'. apply Ok_inj in E'. subst l'.
  pose proof (chunks_of n d ltac:(lia) B) as C. rewrite <- M in C. clear - C. induction l; constructor; apply Forall_cons_iff in C as [? ?]; auto.
Qed.

(** ** Fields of a card *)

Lemma event_fits cm p x : bytes_ok (fst p) -> unmarshal_event cm p = Ok x -> fits (n_event x).
Proof.
  intros B U. unfold unmarshal_event in U. cbv zeta in U. destruct (_ =? 0).
  - apply Ok_inj in U. subst x. unfold n_event. cbn. apply upto_fits. lia.
  - inv_bind U. apply bind_ok in U as (t & T & U). do 2 inv_bind U. apply bind_ok in U as (v & V & U). apply Ok_inj in U. subst x.
    unfold n_event. cbn [ev_type ev_begin ev_end ev_vehicle]. fit.
    pose proof (plate_fits _ _ _ V) as P. destruct v as [n [s|]]; exact P.
Qed.

Lemma events_fit cm d l : bytes_ok d -> unmarshal_events cm d = Ok l -> fits (flat_map n_event l).
Proof.
  intros B E. unfold unmarshal_events in E. apply bind_ok in E as (ps & S & E).
  refine (map_res_fits _ _ _ _ _ (scanned_of 24 d ps _ B S) _ E).
  - pose proof start_le_max. pose proof start_eq. lia.
  - intros p x [P _]. now apply event_fits.
Qed.

Lemma change_fits d x : bytes_ok d -> unmarshal_activity_change d = Ok x -> fits (n_change x).
Proof.
  intros B E. unfold unmarshal_activity_change in E. inv_bind E. cbv zeta in E. apply bind_ok in E as (s & S & E).
  apply bind_ok in E as (act & A & E). apply Ok_inj in E. subst x. unfold n_change. cbn [ac_slot ac_activity ac_minutes]. fit.
  apply upto_fits. lia.
Qed.

Lemma changes_fit : forall n d l, (length d <= n)%nat -> bytes_ok d -> parse_changes d = Ok l -> fits (flat_map n_change l).
Proof.
  induction n as [|n IH]; intros d l L B E; destruct d as [|a [|b d]]; cbn [length] in L; try lia;
    try (apply Ok_inj in E; subst l; constructor).
  cbn [parse_changes] in E. cbv zeta in E. apply bytes_ok_cons in B as [Ba B]. apply bytes_ok_cons in B as [Bb B].
  destruct (_ || _); [apply (IH d); auto; lia|]. apply bind_ok in E as (c & C & E). apply bind_ok in E as (cs & CS & E).
  apply Ok_inj in E. subst l. cbn [flat_map]. apply Forall_app. split; [|apply (IH d); auto; lia].
  apply (change_fits [a; b]); auto. constructor; [exact Ba|]. constructor; [exact Bb|constructor].
Qed.

Lemma day_fits d : bytes_ok d -> fits (n_day (day_of d)).
Proof.
  intros B. unfold day_of. assert (Z : fits (n_day (mkDay false d 0 0 None None 0 []))).
  { unfold n_day. cbn. repeat (constructor; [unfold within, WORD; lia|]). constructor. }
  destruct (parse_day d) as [x| |] eqn:E; try exact Z. clear Z. unfold parse_day in E. apply bind_ok in E as (u & L & E).
  apply guard_ok in L. apply negb_true_iff, Nat.ltb_ge in L.
  apply bind_ok in E as (t & T & E). apply bind_ok in E as (c & C & E). apply bind_ok in E as (cs & CS & E). apply Ok_inj in E. subst x.
  unfold n_day. cbn [day_prev day_len day_date day_counter day_distance day_changes]. fit.
  - rewrite sub_length; lia.
  - eapply changes_fit; [apply le_n| |exact CS]. now apply bytes_ok_skipn.
Qed.

Lemma walk_ok : forall n buf pos l, bytes_ok buf -> ring_walk n buf pos = Ok l -> Forall bytes_ok l.
Proof.
  induction n as [|n IH]; intros buf pos l B E; [discriminate|]. cbn [ring_walk] in E. cbv zeta in E.
  destruct (_ =? 0) in E; [apply Ok_inj in E; subst l; constructor|].
  destruct (_ || _) in E; [apply Ok_inj in E; subst l; constructor|].
  destruct (be (sub buf (Z.to_nat pos + 2) 2) =? 0) in E; [apply Ok_inj in E; subst l; constructor|].
  destruct (_ <? 4) in E; [discriminate|]. apply bind_ok in E as (t & T & E). apply Ok_inj in E. subst l. constructor; [|eapply IH; eauto].
  unfold cyc. apply Forall_forall. intros z I. apply in_map_iff in I as (i & <- & _). pose proof (nth_byte buf ((Z.to_nat pos + i) mod length buf) B).
  unfold byte_ok. lia.
Qed.

Lemma days_fit n buf pos rs : bytes_ok buf -> ring_walk n buf pos = Ok rs -> fits (flat_map n_day (rev (map day_of rs))).
Proof.
  intros B R. apply walk_ok in R; auto. apply flat_fits, Forall_rev, Forall_map. eapply Forall_impl; [|exact R]. apply day_fits.
Qed.

Lemma parsed_days_fit buf start ds : bytes_ok buf -> parse_days buf start = Ok ds -> fits (flat_map n_day ds).
Proof.
  intros B. unfold parse_days. destruct (ring_walk max_days buf start) as [rs| |] eqn:R; cbn [bind]; intros D; try discriminate.
  apply Ok_inj in D. subst ds. exact (days_fit _ _ _ _ B R).
Qed.

Lemma activity_fits d x : bytes_ok d -> unmarshal_activity d = Ok x -> fits (n_activity x).
Proof.
  intros B E. unfold unmarshal_activity in E. inv_bind E. cbv zeta in E. destruct (_ =? 0)%nat; [discriminate|].
  apply bind_ok in E as (ds & D & E). apply Ok_inj in E. subst x. unfold n_activity. cbn [act_oldest act_newest act_days].
  apply Forall_app. split; [apply upto_fits; exact (be_sub_most d 0 2 B)|]. apply Forall_app. split; [apply upto_fits; exact (be_sub_most d 2 2 B)|].
  exact (parsed_days_fit _ _ _ (bytes_ok_skipn 4 d B) D).
Qed.

Lemma vehicle_fits cm d x : chunk 31 d -> unmarshal_card_vehicle cm d = Ok x -> fits (n_vehicle x).
Proof.
  intros [B L] E. unfold unmarshal_card_vehicle in E. repeat inv_bind E. apply Ok_inj in E. subst x.
  unfold n_vehicle. cbn [cv_odo_begin cv_odo_end cv_first_use cv_last_use cv_reg cv_counter]. fit. rewrite sub_length; lia.
Qed.

Lemma vehicle_g2_fits cm d x : chunk 48 d -> unmarshal_card_vehicle_g2 cm d = Ok x -> fits (n_vehicle_g2 x).
Proof.
  intros [B L] E. unfold unmarshal_card_vehicle_g2 in E. repeat inv_bind E. apply Ok_inj in E. subst x.
  unfold n_vehicle_g2. cbn [cv2_odo_begin cv2_odo_end cv2_first_use cv2_last_use cv2_reg cv2_counter]. fit. rewrite sub_length; lia.
Qed.

Lemma gnss_fits d x : bytes_ok d -> unmarshal_gnss_place d = Ok x -> fits (n_gnss (Some x)).
Proof.
  intros B E. unfold unmarshal_gnss_place in E. repeat inv_bind E. apply Ok_inj in E. subst x.
  cbn [n_gnss gp_time gp_accuracy gp_geo]. fit.
Qed.

Lemma unrecognized_fits T hi b : 1 <= hi -> 0 <= b <= 255 -> forallb (fun p => (0 <=? fst p) && (fst p <=? hi)) T = true ->
  fits (upto hi (fst (unmarshal_enum_or_unrecognized T b))) /\ fits (opt_upto BYTE (snd (unmarshal_enum_or_unrecognized T b))).
Proof.
  intros L B H. unfold unmarshal_enum_or_unrecognized. destruct (unmarshal_enum T b) eqn:E; cbn [fst snd opt_upto]; split;
    try (apply upto_fits; unfold ENUM_UNRECOGNIZED, BYTE; lia); [|constructor]. eapply enum_fits; eauto.
Qed.

Lemma place_fits d x : bytes_ok d -> unmarshal_place d = Ok x -> fits (n_place x).
Proof.
  intros B E. unfold unmarshal_place in E. inv_bind E. inv_bind E. cbv zeta in E. apply Ok_inj in E. subst x.
  unfold n_place. cbn [pl_time pl_entry pl_entry_unrecognized pl_country pl_country_unrecognized pl_odometer].
  destruct (unrecognized_fits entry_type_daily_work_period_table 7 (nth 4 d 0) ltac:(lia) (nth_byte d 4 B) eq_refl) as [U1 U2].
  destruct (unrecognized_fits nation_numeric_table 58 (nth 5 d 0) ltac:(lia) (nth_byte d 5 B) eq_refl) as [V1 V2].
  fit.
Qed.

Lemma place_g2_fits d x : bytes_ok d -> unmarshal_place_g2 d = Ok x -> fits (n_place_g2 x).
Proof.
  intros B E. unfold unmarshal_place_g2 in E. inv_bind E. inv_bind E. cbv zeta in E. apply bind_ok in E as (g & G & E). apply Ok_inj in E. subst x.
  unfold n_place_g2. cbn [pl2_time pl2_entry pl2_entry_unrecognized pl2_country pl2_country_unrecognized pl2_odometer pl2_gnss].
  destruct (unrecognized_fits entry_type_daily_work_period_table 7 (nth 4 d 0) ltac:(lia) (nth_byte d 4 B) eq_refl) as [U1 U2].
  destruct (unrecognized_fits nation_numeric_table 58 (nth 5 d 0) ltac:(lia) (nth_byte d 5 B) eq_refl) as [V1 V2].
  fit. apply gnss_fits in G; fit.
Qed.

Lemma condition_fits d x : bytes_ok d -> unmarshal_spec_cond d = Ok x -> fits (n_condition x).
Proof.
  intros B E. unfold unmarshal_spec_cond in E. inv_bind E. inv_bind E. cbv zeta in E.
  pose proof (nth_byte d 4 B).
  destruct (unmarshal_enum _ _) eqn:T; apply Ok_inj in E; subst x; unfold n_condition; cbn [sc_time sc_type sc_unrecognized]; fit;
    apply upto_fits; unfold BYTE, ENUM_UNRECOGNIZED; lia.
Qed.

Lemma odometer_fits d v : bytes_ok d -> unmarshal_odometer d = Ok v -> fits (upto ODOMETER v).
Proof.
  intros B E. unfold unmarshal_odometer in E. apply bind_ok in E as (u & L & E). apply guard_ok in L. apply Nat.eqb_eq in L. apply Ok_inj in E. subst v.
  apply upto_fits. exact (be_most d B 3 ltac:(lia)).
Qed.

Lemma gnss_record_fits d x : bytes_ok d -> unmarshal_gnss_record d = Ok x -> fits (n_gnss_record x).
Proof.
  intros B E. unfold unmarshal_gnss_record in E. inv_bind E. inv_bind E. apply bind_ok in E as (p & P & E). apply bind_ok in E as (o & O & E).
  apply Ok_inj in E. subst x. unfold n_gnss_record. cbn [gr_time gr_place gr_odometer]. fit.
  - apply gnss_fits in P; fit.
  - apply odometer_fits in O; fit.
Qed.

Lemma sec_time_fits d t : bytes_ok d -> sec_time d = Ok t -> fits (n_cert_time (Some t)).
Proof.
  intros B E. unfold sec_time in E. apply bind_ok in E as (u & L & E). apply guard_ok in L. apply Nat.eqb_eq in L. apply Ok_inj in E. subst t.
  cbn [n_cert_time ts_seconds ts_nanos]. pose proof (be_most d B 4 ltac:(lia)) as R. change (256 ^ Z.of_nat 4 - 1) with 4294967295 in R.
  constructor; [exact R|]. apply one. lia.
Qed.

Lemma ecc_fits d x : bytes_ok d -> unmarshal_ecc d = Ok x -> fits (n_ecc x).
Proof.
  intros B E. unfold unmarshal_ecc in E. inv_bind E.
  apply bind_ok in E as ([outer z0] & U & E). apply raw_parts in U as [B1 _]; auto.
  apply bind_ok in E as ([body z1] & U & E). apply raw_parts in U as [B2 B2']; auto.
  apply bind_ok in E as ([cpi r1] & U & E). apply length_parts in U as [C0 B3]; auto.
  apply bind_ok in E as ([car r2] & U & E). apply length_parts in U as [C1 B4]; auto.
  apply bind_ok in E as ([cha r3] & U & E). apply length_parts in U as [_ B5]; auto.
  apply bind_ok in E as ([pk r4] & U & E). apply raw_parts in U as [B6 B7]; auto.
  apply bind_ok in E as (key & K & E).
  apply bind_ok in E as ([chr r5] & U & E). apply length_parts in U as [C2 B8]; auto.
  apply bind_ok in E as ([from r6] & U & E). apply length_parts in U as [C3 B9]; auto. apply bind_ok in E as (tf & TF & E).
  apply bind_ok in E as ([to r7] & U & E). apply length_parts in U as [C4 _]; auto. apply bind_ok in E as (tx & TX & E).
  apply bind_ok in E as ([sg r8] & _ & E). cbv zeta in E. inv_bind E. apply Ok_inj in E. subst x.
  unfold n_ecc. cbn [ecc_cpi ecc_from ecc_to]. fit; eapply sec_time_fits; [|exact TF| |exact TX]; auto.
Qed.

(** Numbers that are literals *)
Ltac fixed_fits := repeat (first [apply Forall_cons; [cbv; split; discriminate|]|apply Forall_nil]).

Ltac done E x := apply Ok_inj in E; subst x.

Lemma licence_fits cm d x : bytes_ok d -> unmarshal_driving_licence cm d = Ok x ->
  fits (n_text 35 (dl_authority x) ++ n_nation (dl_nation x) ++ n_ascii 16 (dl_number x)).
Proof.
  intros B E. unfold unmarshal_driving_licence in E. inv_bind E. inv_bind E. cbv zeta in E. inv_bind E. done E x.
  cbn [dl_authority dl_nation dl_number]. fit.
Qed.

Lemma identification_fits cm d x : bytes_ok d -> unmarshal_identification cm d = Ok x -> fits (n_identification x).
Proof.
  intros B E. unfold unmarshal_identification in E. inv_bind E. cbv zeta in E. apply bind_ok in E as ([t n] & N & E).
  repeat inv_bind E. done E x. apply card_number_fits in N as [T N]. unfold n_identification.
  cbn [ident_type ident_card_part ident_holder_part id_nation id_number id_authority id_issue id_begin id_expiry ih_surname ih_first_names ih_birth ih_language fst snd].
  fit. now apply one.
Qed.

Lemma control_fits cm d x : bytes_ok d -> unmarshal_control_activity cm d = Ok x -> fits (n_control x).
Proof.
  intros B E. unfold unmarshal_control_activity in E. inv_bind E. destruct (_ =? 0).
  - done E x. constructor.
  - inv_bind E. inv_bind E. inv_bind E. cbv zeta in E. repeat inv_bind E. done E x. unfold n_control.
    cbn [ca_time ca_card cng_number cng_generation ca_vehicle ca_begin ca_end n_full_number fcn_type fcn_state fcn_driver fcn_owner di_number].
    fit; try (apply upto_fits; unfold EQ_DRIVER_CARD, BYTE; lia). apply one. unfold GENERATION_1. lia.
Qed.

Lemma icc_fits d x : bytes_ok d -> unmarshal_icc d = Ok x -> fits (n_icc x).
Proof.
  intros B E. unfold unmarshal_icc in E. inv_bind E. inv_bind E. cbv zeta in E. repeat inv_bind E. done E x.
  unfold n_icc. cbn [icc_clock_stop icc_serial icc_approval icc_personaliser icc_embedder em_country em_module em_manufacturer
    n_serial es_serial es_month_year es_type es_manufacturer]. fit.
Qed.

Lemma usage_fits cm d x : bytes_ok d -> unmarshal_current_usage cm d = Ok x -> fits (n_time (cu_time x) ++ n_plate (cu_vehicle x)).
Proof. intros B E. unfold unmarshal_current_usage in E. repeat inv_bind E. done E x. cbn [cu_time cu_vehicle]. fit. Qed.

Lemma download_fits d x : bytes_ok d -> unmarshal_card_download d = Ok x -> fits (n_time x).
Proof. intros B E. unfold unmarshal_card_download in E. inv_bind E. fit. Qed.

Theorem content_fits cm s d x : bytes_ok d -> unmarshal_content cm s d = Ok x -> fits (numbers s x).
Proof.
  intros B E. pose proof start_le_max. pose proof start_eq.
  destruct s; cbn [numbers]; cbn [unmarshal_content content] in *;
    first [ eapply events_fit; eassumption | eapply ecc_fits; eassumption | eapply activity_fits; eassumption
          | eapply licence_fits; eassumption | eapply identification_fits; eassumption | eapply control_fits; eassumption
          | eapply icc_fits; eassumption | eapply usage_fits; eassumption | eapply download_fits; eassumption | apply Forall_nil | idtac ].
  - unfold unmarshal_app_id in E. repeat inv_bind E. done E x. unfold n_app_id.
    cbn [ai_type ai_version ai_card_type ai_driver ad_events ad_faults ad_activity_length ad_vehicles ad_places].
    fit. apply one. unfold DRIVER_CARD. lia.
  - unfold unmarshal_vehicles in E. inv_bind E. apply bind_ok in E as (rs & M & E). done E x. cbn [vs_newest vs_records]. fit.
    refine (map_res_fits _ _ _ _ _ (chunks_of 31 _ _ (bytes_ok_skipn 2 d B)) _ M); [lia|]. intros ? ? P. now apply vehicle_fits.
  - unfold unmarshal_places in E. inv_bind E. done E x. cbn [ps_newest ps_records]. fit.
    apply flat_fits, Forall_map. refine (Forall_impl _ _ (chunks_of 10 _ _ (bytes_ok_skipn 1 d B))); [|lia].
    intros c [P _]. destruct (unmarshal_place c) eqn:U; [now apply (place_fits c)| |]; fixed_fits.
  - unfold unmarshal_conditions in E. destruct (_ =? 0)%nat; done E x; cbn [co_records]; [constructor|].
    refine (collect_fits _ _ _ _ (chunks_of 5 _ _ B) _); [lia|]. intros ? ? [P _]. now apply condition_fits.
  - unfold unmarshal_rsa in E. inv_bind E. done E x. constructor.
  - unfold unmarshal_rsa in E. inv_bind E. done E x. constructor.
  - unfold unmarshal_app_id_g2 in E. repeat inv_bind E. done E x. unfold n_app_id_g2.
    cbn [ai2_type ai2_version ai2_card_type ai2_driver ad2_events ad2_faults ad2_activity_length ad2_vehicles ad2_places ad2_gnss ad2_conditions ad2_units].
    fit. apply one. unfold DRIVER_CARD. lia.
  - unfold unmarshal_vehicles_g2 in E. inv_bind E. apply bind_ok in E as (rs & M & E). done E x. cbn [vs2_newest vs2_records]. fit.
    refine (map_res_fits _ _ _ _ _ (chunks_of 48 _ _ (bytes_ok_skipn 2 d B)) _ M); [lia|]. intros ? ? P. now apply vehicle_g2_fits.
  - unfold unmarshal_places_g2 in E. inv_bind E. done E x. cbn [ps2_newest ps2_records]. fit.
    apply flat_fits, Forall_map. refine (Forall_impl _ _ (chunks_of 21 _ _ (bytes_ok_skipn 2 d B))); [|lia].
    intros c [P _]. destruct (unmarshal_place_g2 c) eqn:U; [now apply (place_g2_fits c)| |]; fixed_fits.
  - unfold unmarshal_conditions_g2 in E. inv_bind E. done E x. cbn [co2_newest co2_records]. fit.
    refine (collect_fits _ _ _ _ (chunks_of 5 _ _ (bytes_ok_skipn 2 d B)) _); [lia|]. intros ? ? [P _]. now apply condition_fits.
  - unfold unmarshal_units_used in E. do 2 inv_bind E. apply bind_ok in E as (l & SC & E). apply bind_ok in E as (rs & M & E). done E x. cbn [uu_newest uu_records]. fit.
    refine (map_res_fits _ _ _ _ _ (scanned_of 10 _ _ _ (bytes_ok_skipn 2 d B) SC) _ M); [lia|]. intros p x [P _] U.
    unfold unmarshal_unit_record in U. cbv zeta in U. repeat inv_bind U. done U x. unfold n_unit. cbn [ur_time ur_manufacturer]. fit.
  - unfold unmarshal_gnss_places in E. do 2 inv_bind E. apply bind_ok in E as (l & SC & E). apply bind_ok in E as (rs & M & E). done E x. cbn [gps_newest gps_records]. fit.
    refine (map_res_fits _ _ _ _ _ (scanned_of 18 _ _ _ (bytes_ok_skipn 2 d B) SC) _ M); [lia|]. intros p x [P _]. now apply gnss_record_fits.
  - unfold unmarshal_app_id_v2 in E. inv_bind E. done E x. unfold n_app_v2. cbn [av2_card_type av2_driver av2_workshop av2_company av2_control n_counts v2_border v2_load v2_load_type v2_config].
    fit. apply one. unfold DRIVER_CARD. lia.
Qed.

(** ** Vehicle units *)

Lemma eaten_fits {X} (un : bytes -> res X) (f : X -> list number) n k d xs r : bytes_ok d ->
  (forall b x, bytes_ok b -> un b = Ok x -> fits (f x)) -> eat_records un n k d = Ok (xs, r) ->
  fits (flat_map f xs) /\ bytes_ok r.
Proof.
  intros B U E. apply eat_records_inv in E as (bs & -> & _ & _ & Q). apply bytes_ok_app in B as [B R]. split; auto.
  apply flat_fits. induction Q as [|b x bs xs H Q IH]; constructor.
  - cbn [concat] in B. apply bytes_ok_app in B as [B _]. eauto.
  - cbn [concat] in B. apply bytes_ok_app in B as [_ B]. auto.
Qed.

Ltac vfit := fit; try (match goal with
  | H : unmarshal_full_card_number _ = Ok ?n |- fits (n_full_number 14 (Some ?n)) => refine (full_number_fits _ _ _ H)
  | H : unmarshal_odometer _ = Ok ?n |- fits (upto ODOMETER ?n) => refine (odometer_fits _ _ _ H)
  end; fit).

Lemma lock_fits cm d x : bytes_ok d -> unmarshal_lock cm d = Ok x -> fits (n_lock x).
Proof.
  intros B E. unfold unmarshal_lock in E. repeat inv_bind E. done E x.
  unfold n_lock. cbn [cl_in cl_out cl_name cl_address cl_card]. vfit.
Qed.

Lemma vu_control_fits d x : bytes_ok d -> unmarshal_vu_control d = Ok x -> fits (n_vu_control x).
Proof.
  intros B E. unfold unmarshal_vu_control in E. repeat inv_bind E. done E x.
  unfold n_vu_control. cbn [vc_time vc_card vc_begin vc_end]. vfit.
Qed.

Lemma insertion_fits cm d x : bytes_ok d -> unmarshal_card_iw cm d = Ok x -> fits (n_insertion x).
Proof.
  intros B E. unfold unmarshal_card_iw in E. inv_bind E. apply bind_ok in E as (h & H & E). apply bind_ok in E as (n & N & E).
  do 6 inv_bind E. apply bind_ok in E as (p & P & E). done E x.
  unfold n_insertion. cbn [iw_holder iw_card iw_expiry iw_insertion iw_odo_insertion iw_slot iw_withdrawal iw_odo_withdrawal iw_previous].
  unfold unmarshal_holder_name in H. repeat inv_bind H. done H h.
  unfold unmarshal_previous_vehicle in P. repeat inv_bind P. done P p.
  cbn [hn_surname hn_first_names pv_reg pv_withdrawal]. vfit.
Qed.

Lemma vu_place_fits d x : bytes_ok d -> unmarshal_vu_place d = Ok x -> fits (n_vu_place x).
Proof.
  intros B E. unfold unmarshal_vu_place in E. repeat inv_bind E. done E x.
  unfold n_vu_place. cbn [vp_time vp_type vp_country vp_odometer]. vfit.
Qed.

Lemma overview_fits cm d o : bytes_ok d -> unmarshal_overview_gen1 cm d = Ok o -> fits (n_overview o).
Proof.
  intros B E. unfold unmarshal_overview_gen1 in E. cbv zeta in E.
  bite E B. bite E B. apply bind_ok in E as ([vb dv] & U & E). pose proof (eat_inv _ _ _ _ U) as [_ LV]. apply eaten in U as [CV U]; [|exact B]; clear B; rename U into B.
  apply bind_ok in E as (vin & VIN & E). bite E B. inv_bind E. bite E B. inv_bind E. bite E B. do 2 inv_bind E.
  apply bind_ok in E as ([sb dsl] & U & E). apply eaten in U as [CS U]; [|exact B]; clear B; rename U into B.
  bite E B. do 3 inv_bind E. bite E B. inv_bind E.
  apply bind_ok in E as ([ls dl] & U & E).
  apply (eaten_fits _ n_lock) in U as [L BL]; [|exact B|intros; eapply lock_fits; eassumption].
  bite E BL. inv_bind E. apply bind_ok in E as ([cs dc] & U & E).
  apply (eaten_fits _ n_vu_control) in U as [K BK]; [|exact BL|intros; eapply vu_control_fits; eassumption].
  bite E BK. inv_bind E. done E o.
  unfold n_overview. cbn [ov_vin ov_reg ov_time ov_period ov_driver_slot ov_codriver_slot ov_downloads ov_locks ov_controls flat_map].
  unfold n_download. cbn [da_time da_card da_name]. vfit.
  - exact (ascii_most _ _ 17 VIN ltac:(lia)).
  - apply upto_fits. change 15 with (Z.ones 4). rewrite Z.land_ones by lia. change (Z.ones 4) with 15. lia.
  - apply upto_fits. change 15 with (Z.ones 4) at 1 2. rewrite Z.land_ones by lia. change (Z.ones 4) with 15. lia.
Qed.

Lemma activities_fit cm d x : bytes_ok d -> unmarshal_activities_gen1 cm d = Ok x -> fits (n_activities x).
Proof.
  intros B E. unfold unmarshal_activities_gen1 in E. cbv zeta in E. bite E B. inv_bind E. bite E B. inv_bind E. bite E B.
  apply bind_ok in E as ([is di] & U & E).
  apply (eaten_fits _ n_insertion) in U as [L1 B1]; [|exact B|intros; eapply insertion_fits; eassumption]. bite E B1.
  apply bind_ok in E as ([chs dc] & U & E).
  apply (eaten_fits _ n_change) in U as [L2 B2]; [|exact B1|intros; eapply change_fits; eassumption]. bite E B2.
  apply bind_ok in E as ([ps dp] & U & E).
  apply (eaten_fits _ n_vu_place) in U as [L3 B3]; [|exact B2|intros; eapply vu_place_fits; eassumption]. bite E B3.
  apply bind_ok in E as ([cs ds] & U & E).
  apply (eaten_fits _ n_condition) in U as [L4 B4]; [|exact B3|intros; eapply condition_fits; eassumption]. bite E B4. inv_bind E.
  done E x. unfold n_activities. cbn [ac_date ac_odometer ac_iw ac_changes ac_places ac_conditions]. vfit.
Qed.

(** * C113 *)

Lemma find_le : forall l f p hi, Forall (fun q : Z * Z => 0 <= fst q <= hi) l -> find f l = Some p -> 0 <= fst p <= hi.
Proof.
  induction l as [|a l IH]; cbn [find]; intros f p hi H E; [discriminate|]. apply Forall_cons_iff in H as [H1 H2].
  destruct (f a); [injection E as <-; exact H1|eauto].
Qed.

(** Every number in the message of an accepted file is within the range its bytes
    can hold. *)
Theorem C113_numbers_fit : forall cm d f, bytes_ok d -> unmarshal_file cm d = Ok f ->
  (forall v, file_vu f = Some v -> Forall within (vu_numbers v)) /\
  (forall c s x sg, file_driver_card f = Some c -> slot_of_card c s = Some (x, sg) -> Forall within (numbers s x)) /\
  (forall rs, file_raw_card f = Some rs -> Forall within (flat_map raw_numbers rs)).
Proof.
  intros cm d f B E. destruct (proj1 (C01_dispatch cm d B) f E) as [(v & ->)|[(c & ->)|(rs & ->)]]; cbn [file_vu file_driver_card file_raw_card];
    (split; [intros v' Q|split; [intros c' s x sg Q X|intros rs' Q]]); try discriminate.
  - injection Q as <-. destruct (Props_Vu.vu_download cm d v B E) as (_ & ts & D & W & [(g & G & P & BU)|[[G _]|(G & _ & _)]]);
      injection G as ->; try constructor.
    destruct BU as (T & R1 & R2 & _ & _ & _ & P1 & P2 & _).
    assert (BV : forall k w, In w (Props_Vu.values k ts) -> bytes_ok w).
    { intros k w I. unfold Props_Vu.values in I. apply in_map_iff in I as ([k' w'] & <- & I). apply filter_In in I as [I _].
      rewrite D in B. clear - B I. induction ts as [|[k2 w2] ts IH]; [contradiction|].
      change (Props_Vu.download ((k2, w2) :: ts)) with ((0x76 :: k2 :: w2) ++ Props_Vu.download ts) in B. apply bytes_ok_app in B as [B1 B2].
      destruct I as [Q|I]; [|auto]. injection Q as <- <-. cbn [snd]. now do 2 apply bytes_ok_cons in B1 as [_ B1]. }
    cbn [vu_numbers]. apply Forall_app. split.
    + destruct (g1_overview g) as [o|]; [|constructor]. cbn [Props_Vu.opt_list] in *. apply Forall_inv in P1.
      eapply overview_fits; [|exact P1]. apply (BV 0x01).
      assert (I : In (ov_raw o) (Props_Vu.last_one (Props_Vu.values 0x01 ts))) by (rewrite <- R1; now left).
      unfold Props_Vu.last_one in I. destruct (rev (Props_Vu.values 0x01 ts)) eqn:V; [contradiction|]. destruct I as [I|[]].
      apply in_rev. rewrite V. left. exact I.
    + apply flat_fits. rewrite Forall_forall in *. intros a I. specialize (P2 a I).
      eapply activities_fit; [|exact P2]. apply (BV 0x02). rewrite <- R2. now apply in_map.
  - injection Q as <-. destruct (accepted_bytes cm d c B E) as (us & V & D & A).
    destruct (proj1 (C10_applications_partial cm us c V A) s x sg X) as (u & I & U & _).
    apply (content_fits cm s (u_val u)); [|exact U]. rewrite Forall_forall in V. now apply V.
  - injection Q as <-. assert (R : unmarshal_raw_card_file d = Ok rs).
    { unfold unmarshal_file in E. destruct (length d <? 2)%nat; [discriminate|]. destruct (_ =? 0x76).
      - apply bind_ok in E as (v & _ & E). discriminate.
      - destruct (_ =? 2) in E; [|discriminate].
        apply bind_ok in E as (r & R & E). destruct (_ =? _) in E.
        + apply bind_ok in E as (c & _ & E). discriminate.
        + apply Ok_inj in E. injection E as ->. exact R. }
    apply (proj1 (proj2 C03_card_framing)) in R as (ts & T & _ & ->); [|exact B].
    apply flat_fits, Forall_map. eapply Forall_impl; [|exact T]. intros t [(F1 & A1 & _) L]. unfold raw_numbers, expected.
    cbn [rr_tag rr_file rr_generation rr_content rr_length]. unfold byte_ok in A1. fit.
    + apply upto_fits. lia.
    + apply upto_fits. unfold map_fid. destruct (find _ _) as [[n i]|] eqn:Q; [|cbv; split; discriminate].
      apply (find_le _ _ _ 40) in Q; [exact Q|]. unfold file_ids. repeat (apply Forall_cons; [cbv; split; discriminate|]). constructor.
    + apply one. destruct (Z.odd _); lia.
    + apply one. destruct (Z.odd _); lia.
    + apply upto_fits. unfold t_len in *. unfold WORD. lia.
Qed.
Print Assumptions C113_numbers_fit.

(** A card with a position, whose numbers are at the ends of their ranges. *)
Example C113_example :
  exists us c x sg, Forall dumped_ok us /\ accepted no_charmap us c /\
    slot_of_card c S2_gnss = Some (x, sg) /\
    numbers S2_gnss x = [(0, 65535, 65535); (1, 4294967295, 4294967295); (0, 0, 0); (1, 1, 4294967295); (0, 0, 0); (0, 255, 255);
      (-8388608, -8388608, 8388607); (-8388608, 8388607, 8388607); (0, 16777215, 16777215)].
Proof.
  set (u := mkDumped 0x0524 2 ([255; 255; 255; 255; 255; 255] ++ [0; 0; 0; 1; 255; 128; 0; 0; 127; 255; 255] ++ [255; 255; 255]) None).
  set (us := [icc_unit; u]).
  destruct (driver_ok_accepted us) as (V & c & A); [vm_compute; reflexivity|].
  assert (Q := A). apply accepted_iff in Q as (os & _ & _ & G & E); auto.
  destruct (card_last no_charmap us os S2_gnss u [icc_unit] [] G) as (x & X & _ & S);
    [reflexivity|reflexivity|constructor|].
  exists us, c, x, None. split; auto. split; auto. split; [subst c; exact S|].
  match goal with |- _ = ?l => assert (W : option_map (numbers S2_gnss) (match unmarshal_content no_charmap S2_gnss (u_val u) with Ok x => Some x | _ => None end) = Some l)
    by (vm_compute; reflexivity) end.
  rewrite X in W. exact (f_equal (fun o => match o with Some l => l | None => [] end) W).
Qed.

Example C113_dates : forall x, unmarshal_date [255; 255; 255; 255] = Ok x ->
  n_date (Some x) = [(0, 16665, 16665); (0, 165, 165); (0, 165, 165)].
Proof. intros x E. apply Ok_inj in E. subst x. reflexivity. Qed.

Example C113_vu_example :
  match unmarshal_file (fun _ b => b) Props_Download.five with
  | Ok f => match file_vu f with Some v => (20 <? length (vu_numbers v))%nat | None => false end
  | _ => false
  end = true.
Proof. vm_compute. reflexivity. Qed.
