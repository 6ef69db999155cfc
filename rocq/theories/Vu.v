(** Vehicle unit downloads: internal/vu and the data dictionary records only it
    uses. *)

From Verif Require Import Base Enums Chunks DDScalar DDString DDRecord RawTypes.

(** ** Records of the data dictionary *)

Section WithCharmaps.
Variable cm : Z -> Z -> Z.

(** dd/v1/previous_vehicle_info.proto *)
Record previous_vehicle := mkPV {
  pv_raw : bytes; pv_reg : option vreg; pv_withdrawal : option timestamp }.

(** internal/dd/previous_vehicle_info.go:19-48 *)
Definition unmarshal_previous_vehicle (d : bytes) : res previous_vehicle :=
  let* _ := guard (length d =? 19)%nat in
  let* v := unmarshal_vreg cm (sub d 0 15) in
  let* t := unmarshal_time (sub d 15 4) in
  Ok (mkPV d (Some v) t).

(** internal/dd/previous_vehicle_info.go:51-81 (nil-safe getters) *)
Definition append_previous_vehicle (o : option previous_vehicle) : res bytes :=
  let r := odflt (mkPV [] None None) o in
  let* c := raw_canvas_nonempty 19 (pv_raw r) in
  let* v := append_vreg (pv_reg r) in
  let c := copy_into c 0 15 v in
  let* t := append_time (pv_withdrawal r) in
  Ok (copy_into c 15 19 t).

(** dd/v1/previous_vehicle_info_g2.proto *)
Record previous_vehicle_g2 := mkPV2 {
  pv2_raw : bytes; pv2_reg : option vreg; pv2_withdrawal : option timestamp; pv2_generation : Z }.

(** internal/dd/previous_vehicle_info_g2.go:20-56 (no caller) *)
Definition unmarshal_previous_vehicle_g2 (d : bytes) : res previous_vehicle_g2 :=
  let* _ := guard (length d =? 20)%nat in
  let* v := unmarshal_vreg cm (sub d 0 15) in
  let* t := unmarshal_time (sub d 15 4) in
  let* g := unmarshal_enum generation_table (nth 19 d 0) in
  Ok (mkPV2 d (Some v) t g).

(** internal/dd/previous_vehicle_info_g2.go:59-97 (no caller; nil-safe getters) *)
Definition append_previous_vehicle_g2 (o : option previous_vehicle_g2) : res bytes :=
  let r := odflt (mkPV2 [] None None 0) o in
  let* c := raw_canvas_nonempty 20 (pv2_raw r) in
  let* v := append_vreg (pv2_reg r) in
  let c := copy_into c 0 15 v in
  let* t := append_time (pv2_withdrawal r) in
  let c := copy_into c 15 19 t in
  let* g := marshal_enum generation_table (pv2_generation r) in
  Ok (set_byte c 19 g).

(** dd/v1/vu_card_iw_record.proto *)
Record card_iw := mkIW {
  iw_raw : bytes; iw_holder : option holder_name; iw_card : option full_card_number;
  iw_expiry : option date; iw_insertion : option timestamp; iw_odo_insertion : Z; iw_slot : Z;
  iw_withdrawal : option timestamp; iw_odo_withdrawal : Z;
  iw_previous : option previous_vehicle; iw_manual : bool }.

(** internal/dd/vu_card_iw_record.go:39-138 *)
Definition unmarshal_card_iw (d : bytes) : res card_iw :=
  let* _ := guard (length d =? 129)%nat in
  let* h := unmarshal_holder_name cm (sub d 0 72) in
  let* n := unmarshal_full_card_number (sub d 72 18) in
  let* e := unmarshal_date (sub d 90 4) in
  let* ti := unmarshal_time (sub d 94 4) in
  let* oi := unmarshal_odometer (sub d 98 3) in
  let* s := unmarshal_enum card_slot_number_table (nth 101 d 0) in
  let* tw := unmarshal_time (sub d 102 4) in
  let* ow := unmarshal_odometer (sub d 106 3) in
  let* p := unmarshal_previous_vehicle (sub d 109 19) in
  Ok (mkIW d (Some h) (Some n) (Some e) ti oi s tw ow (Some p) (negb (nth 128 d 0 =? 0))).

(** internal/dd/vu_card_iw_record.go:141-226 *)
Definition append_card_iw (r : card_iw) : res bytes :=
  let* c := raw_canvas_nonempty 129 (iw_raw r) in
  let* h := append_holder_name (iw_holder r) in
  let c := copy_into c 0 72 h in
  let* n := append_full_card_number (iw_card r) in
  let c := copy_into c 72 90 n in
  let* e := append_date (iw_expiry r) in
  let c := copy_into c 90 94 e in
  let* ti := append_time (iw_insertion r) in
  let c := copy_into c 94 98 ti in
  let c := copy_into c 98 101 (append_odometer (u32 (iw_odo_insertion r))) in
  let c := set_byte c 101 (marshal_enum_or_zero card_slot_number_table (iw_slot r)) in
  let* tw := append_time (iw_withdrawal r) in
  let c := copy_into c 102 106 tw in
  let c := copy_into c 106 109 (append_odometer (u32 (iw_odo_withdrawal r))) in
  let* p := append_previous_vehicle (iw_previous r) in
  let c := copy_into c 109 128 p in
  Ok (set_byte c 128 (if iw_manual r then 1 else 0)).

End WithCharmaps.

(** ** Transfer types *)

(** transfer_type.proto: TransferType.  A value's trep_value option; its
    generation option (0 if it has none). *)
Inductive transfer_type :=
  | DOWNLOAD_INTERFACE_VERSION
  | OVERVIEW_GEN1 | ACTIVITIES_GEN1 | EVENTS_AND_FAULTS_GEN1 | DETAILED_SPEED_GEN1
  | TECHNICAL_DATA_GEN1
  | CARD_DOWNLOAD
  | OVERVIEW_GEN2_V1 | ACTIVITIES_GEN2_V1 | EVENTS_AND_FAULTS_GEN2_V1 | DETAILED_SPEED_GEN2
  | TECHNICAL_DATA_GEN2_V1
  | OVERVIEW_GEN2_V2 | ACTIVITIES_GEN2_V2 | EVENTS_AND_FAULTS_GEN2_V2 | TECHNICAL_DATA_GEN2_V2.

Definition transfer_types : list (transfer_type * Z * Z) :=
  [(DOWNLOAD_INTERFACE_VERSION, 0x00, 2);
   (OVERVIEW_GEN1, 0x01, 1); (ACTIVITIES_GEN1, 0x02, 1); (EVENTS_AND_FAULTS_GEN1, 0x03, 1);
   (DETAILED_SPEED_GEN1, 0x04, 1); (TECHNICAL_DATA_GEN1, 0x05, 1);
   (CARD_DOWNLOAD, 0x06, 0);
   (OVERVIEW_GEN2_V1, 0x21, 2); (ACTIVITIES_GEN2_V1, 0x22, 2);
   (EVENTS_AND_FAULTS_GEN2_V1, 0x23, 2); (DETAILED_SPEED_GEN2, 0x24, 2);
   (TECHNICAL_DATA_GEN2_V1, 0x25, 2);
   (OVERVIEW_GEN2_V2, 0x31, 2); (ACTIVITIES_GEN2_V2, 0x32, 2);
   (EVENTS_AND_FAULTS_GEN2_V2, 0x33, 2); (TECHNICAL_DATA_GEN2_V2, 0x35, 2)].

(** vehicle_unit_file.go:270-285 findTransferTypeByTag *)
Definition find_transfer_type (tag : Z) : option transfer_type :=
  match find (fun p => let '(_, trep, _) := p in u16 (Z.lor 0x7600 (Z.land trep 255)) =? tag)
          transfer_types with
  | Some (t, _, _) => Some t
  | None => None
  end.

Definition transfer_type_eqb (a b : transfer_type) : bool :=
  match a, b with
  | DOWNLOAD_INTERFACE_VERSION, DOWNLOAD_INTERFACE_VERSION
  | OVERVIEW_GEN1, OVERVIEW_GEN1 | ACTIVITIES_GEN1, ACTIVITIES_GEN1
  | EVENTS_AND_FAULTS_GEN1, EVENTS_AND_FAULTS_GEN1 | DETAILED_SPEED_GEN1, DETAILED_SPEED_GEN1
  | TECHNICAL_DATA_GEN1, TECHNICAL_DATA_GEN1 | CARD_DOWNLOAD, CARD_DOWNLOAD
  | OVERVIEW_GEN2_V1, OVERVIEW_GEN2_V1 | ACTIVITIES_GEN2_V1, ACTIVITIES_GEN2_V1
  | EVENTS_AND_FAULTS_GEN2_V1, EVENTS_AND_FAULTS_GEN2_V1
  | DETAILED_SPEED_GEN2, DETAILED_SPEED_GEN2
  | TECHNICAL_DATA_GEN2_V1, TECHNICAL_DATA_GEN2_V1
  | OVERVIEW_GEN2_V2, OVERVIEW_GEN2_V2 | ACTIVITIES_GEN2_V2, ACTIVITIES_GEN2_V2
  | EVENTS_AND_FAULTS_GEN2_V2, EVENTS_AND_FAULTS_GEN2_V2
  | TECHNICAL_DATA_GEN2_V2, TECHNICAL_DATA_GEN2_V2 => true
  | _, _ => false
  end.

(** raw_vehicle_unit_file.go:115-126 generationFromTransferType *)
Definition transfer_generation (t : transfer_type) : Z :=
  match find (fun p => let '(u, _, _) := p in transfer_type_eqb u t) transfer_types with
  | Some (_, _, g) => g
  | None => 0
  end.

(** ** Sizes

    Sizes and offsets are Go ints ([Z]); they stay below 2^37, so they never
    overflow. *)

Definition len (d : bytes) : Z := Z.of_nat (length d).

(** Go's [data[offset:]]. *)
Definition from (d : bytes) (o : Z) : res bytes :=
  if o <=? len d then Ok (skipn (Z.to_nat o) d) else Panic.

(** [if len(data[offset:]) < n { return error }] and the [n]-byte number there. *)
Definition number_at (n : nat) (d : bytes) (o : Z) : res Z :=
  let* t := from d o in
  let* _ := guard (negb (length t <? n)%nat) in
  Ok (be (sub t 0 n)).

(** raw_vehicle_unit_file.go:101-112 sizeOfRecordArray *)
Definition size_of_record_array (d : bytes) (o : Z) : res Z :=
  let* t := from d o in
  let* _ := guard (negb (length t <? 5)%nat) in
  Ok (5 + be (sub t 1 2) * be (sub t 3 2)).

(** [n] record arrays in a row starting at [o]: the offset behind them. *)
Fixpoint skip_record_arrays (n : nat) (d : bytes) (o : Z) : res Z :=
  match n with
  | O => Ok o
  | S m => let* s := size_of_record_array d o in skip_record_arrays m d (o + s)
  end.

(** download_interface_version.go:19-25 *)
Definition size_interface_version (d : bytes) : res Z :=
  let* _ := guard (negb (length d <? 2)%nat) in Ok 2.

(** overview.go:47-89 sizeOfOverviewGen1 *)
Definition size_overview_gen1 (d : bytes) : res Z :=
  let* locks := number_at 1 d 491 in
  let o := 492 + locks * 98 in
  let* controls := number_at 1 d o in
  Ok (o + 1 + controls * 31 + 128).

(** activities.go:52-110 sizeOfActivitiesGen1 *)
Definition size_activities_gen1 (d : bytes) : res Z :=
  let* n := number_at 2 d 7 in
  let o := 9 + n * 129 in
  let* m := number_at 2 d o in
  let o := o + 2 + m * 2 in
  let* p := number_at 1 d o in
  let o := o + 1 + p * 28 in
  let* q := number_at 2 d o in
  Ok (o + 2 + q * 5 + 128).

(** events_faults.go:76-129 sizeOfEventsAndFaultsGen1 *)
Definition size_events_gen1 (d : bytes) : res Z :=
  let* a := number_at 1 d 0 in
  let o := 1 + a * 82 in
  let* b := number_at 1 d o in
  let o := o + 1 + b * 83 + 9 in
  let* c := number_at 1 d o in
  let o := o + 1 + c * 31 in
  let* e := number_at 1 d o in
  Ok (o + 1 + e * 98 + 128).

(** detailed_speed.go:36-56 sizeOfDetailedSpeedGen1 *)
Definition size_speed_gen1 (d : bytes) : res Z :=
  let* n := number_at 2 d 0 in Ok (2 + n * 64 + 128).

(** technical_data.go:66-90 sizeOfTechnicalDataGen1 *)
Definition size_technical_gen1 (d : bytes) : res Z :=
  let* n := number_at 1 d 136 in Ok (137 + n * 167 + 128).

(** card_download.go:21-48 sizeOfCardDownload, written over the remaining bytes *)
Fixpoint size_card_download (fuel : nat) (d : bytes) : res Z :=
  match fuel with
  | O => Ok 0
  | S k =>
      if (length d <? 5)%nat then Ok 0
      else
        let size := (5 + Z.to_nat (be (sub d 3 2)))%nat in
        let* _ := guard (negb (length d <? size)%nat) in
        let* n := size_card_download k (skipn size d) in
        Ok (Z.of_nat size + n)
  end.

(** The number of record arrays the sizeOf functions walk over:
    overview.go:94-175, 181-262; activities.go:113-173, 177-251;
    events_faults.go:133-180, 183-237; detailed_speed.go:58-77;
    technical_data.go:93-125, 128-182. *)
Definition arrays_sized (t : transfer_type) : nat :=
  match t with
  | OVERVIEW_GEN2_V1 | OVERVIEW_GEN2_V2 => 11
  | ACTIVITIES_GEN2_V1 => 8
  | ACTIVITIES_GEN2_V2 => 10
  | EVENTS_AND_FAULTS_GEN2_V1 => 6
  | EVENTS_AND_FAULTS_GEN2_V2 => 7
  | DETAILED_SPEED_GEN2 => 2
  | TECHNICAL_DATA_GEN2_V1 => 4
  | TECHNICAL_DATA_GEN2_V2 => 7
  | _ => 0
  end.

(** raw_vehicle_unit_file.go:71-90 sizeOfTransferValue *)
Definition size_of_transfer_value (t : transfer_type) (d : bytes) : res Z :=
  match t with
  | DOWNLOAD_INTERFACE_VERSION => size_interface_version d
  | OVERVIEW_GEN1 => size_overview_gen1 d
  | ACTIVITIES_GEN1 => size_activities_gen1 d
  | EVENTS_AND_FAULTS_GEN1 => size_events_gen1 d
  | DETAILED_SPEED_GEN1 => size_speed_gen1 d
  | TECHNICAL_DATA_GEN1 => size_technical_gen1 d
  | CARD_DOWNLOAD => size_card_download (length d) d
  | _ => skip_record_arrays (arrays_sized t) d 0
  end.

(** ** Splitting *)

(** raw_vehicle_unit_file.proto: RawVehicleUnitFile.Record; the field generation is
    a function of the type. *)
Record vu_record := mkVR { vr_tag : Z; vr_type : transfer_type; vr_value : bytes }.

(** raw_vehicle_unit_file.go:25-67 unmarshalRawVehicleUnitFile, written over the
    bytes that remain at the current offset. *)
Fixpoint split_vu (fuel : nat) (d : bytes) : res (list vu_record) :=
  match fuel with
  | O => Ok []
  | S k =>
      if (length d =? 0)%nat then Ok []
      else
        let* _ := guard (negb (length d <? 2)%nat) in
        let tag := be (sub d 0 2) in
        match find_transfer_type tag with
        | None => fail
        | Some t =>
            let rest := skipn 2 d in
            let* n := size_of_transfer_value t rest in
            let* _ := guard (negb (len rest <? n)) in
            let* rs := split_vu k (skipn (Z.to_nat n) rest) in
            Ok (mkVR tag t (firstn (Z.to_nat n) rest) :: rs)
        end
  end.

Definition unmarshal_raw_vu (d : bytes) : res (list vu_record) := split_vu (length d) d.

(** ** First-generation transfers *)

(** The next [n] bytes behind [if offset+n > len(value) { return error }]. *)
Definition eat (n : nat) (d : bytes) : res (bytes * bytes) :=
  let* _ := guard (negb (length d <? n)%nat) in
  Ok (firstn n d, skipn n d).

(** [k] records of [n] bytes. *)
Fixpoint eat_records {X} (un : bytes -> res X) (n k : nat) (d : bytes) : res (list X * bytes) :=
  match k with
  | O => Ok ([], d)
  | S j =>
      let* (b, d) := eat n d in
      let* x := un b in
      let* (xs, d) := eat_records un n j d in
      Ok (x :: xs, d)
  end.

(** overview_gen1.proto *)
Record download_activity := mkDA {
  da_time : option timestamp; da_card : option full_card_number; da_name : option string_value }.

Record company_lock := mkCL {
  cl_in : option timestamp; cl_out : option timestamp; cl_name : option string_value;
  cl_address : option string_value; cl_card : option full_card_number }.

Record vu_control := mkVC {
  vc_type : option control_type; vc_time : option timestamp; vc_card : option full_card_number;
  vc_begin : option timestamp; vc_end : option timestamp }.

(** [ov_period]: DownloadablePeriod's min_time and max_time. *)
Record overview_gen1 := mkOv {
  ov_raw : bytes; ov_ms_cert : bytes; ov_vu_cert : bytes; ov_vin : option ia5;
  ov_reg : option vreg; ov_time : option timestamp;
  ov_period : option (option timestamp * option timestamp);
  ov_driver_slot : Z; ov_codriver_slot : Z; ov_downloads : list download_activity;
  ov_locks : list company_lock; ov_controls : list vu_control; ov_signature : bytes }.

(** activities_gen1.proto; ActivitiesGen1.PlaceRecord has no field for the card
    number in the transfer. *)
Record vu_place := mkVP {
  vp_time : option timestamp; vp_type : Z; vp_country : Z; vp_region : bytes; vp_odometer : Z }.

Record activities_gen1 := mkActs {
  ac_raw : bytes; ac_date : option timestamp; ac_odometer : Z; ac_iw : list card_iw;
  ac_changes : list activity_change; ac_places : list vu_place; ac_conditions : list spec_cond;
  ac_signature : bytes }.

(** EventsAndFaultsGen1, DetailedSpeedGen1, TechnicalDataGen1: as far as the code
    fills them. *)
Record raw_signed := mkRS { rs_raw : bytes; rs_signature : bytes }.

Section WithCharmaps2.
Variable cm : Z -> Z -> Z.

(** overview_gen1.go:189-234, one lock *)
Definition unmarshal_lock (d : bytes) : res company_lock :=
  let* a := unmarshal_time (sub d 0 4) in
  let* b := unmarshal_time (sub d 4 4) in
  let* n := unmarshal_string_value cm (sub d 8 36) in
  let* s := unmarshal_string_value cm (sub d 44 36) in
  let* c := unmarshal_full_card_number (sub d 80 18) in
  Ok (mkCL a b (Some n) (Some s) (Some c)).

(** overview_gen1.go:250-294, one control *)
Definition unmarshal_vu_control (d : bytes) : res vu_control :=
  let* t := unmarshal_control_type (sub d 0 1) in
  let* a := unmarshal_time (sub d 1 4) in
  let* c := unmarshal_full_card_number (sub d 5 18) in
  let* b := unmarshal_time (sub d 23 4) in
  let* e := unmarshal_time (sub d 27 4) in
  Ok (mkVC (Some t) a (Some c) b e).

(** overview_gen1.go:61-312 unmarshalOverviewGen1 *)
Definition unmarshal_overview_gen1 (value : bytes) : res overview_gen1 :=
  let d := value in
  let* (ms, d) := eat 194 d in
  let* (vc, d) := eat 194 d in
  let* (b, d) := eat 17 d in
  let* vin := unmarshal_ia5 b in
  let* (b, d) := eat 15 d in
  let* reg := unmarshal_vreg cm b in
  let* (b, d) := eat 4 d in
  let* now := unmarshal_time b in
  let* (b, d) := eat 8 d in
  let* tmin := unmarshal_time (sub b 0 4) in
  let* tmax := unmarshal_time (sub b 4 4) in
  let* (b, d) := eat 1 d in
  let slots := nth 0 b 0 in
  let* (b, d) := eat 58 d in
  let* dt := unmarshal_time (sub b 0 4) in
  let* dc := unmarshal_full_card_number (sub b 4 18) in
  let* dn := unmarshal_string_value cm (sub b 22 36) in
  let* (b, d) := eat 1 d in
  let locks := Z.to_nat (nth 0 b 0) in
  let* _ := guard (negb (length d <? locks * 98)%nat) in
  let* (ls, d) := eat_records unmarshal_lock 98 locks d in
  let* (b, d) := eat 1 d in
  let controls := Z.to_nat (nth 0 b 0) in
  let* _ := guard (negb (length d <? controls * 31)%nat) in
  let* (cs, d) := eat_records unmarshal_vu_control 31 controls d in
  let* (sig, d) := eat 128 d in
  let* _ := guard (length d =? 0)%nat in
  Ok (mkOv value ms vc (Some vin) (Some reg) now (Some (tmin, tmax))
        (Z.land slots 15) (Z.land (Z.shiftr slots 4) 15)
        [mkDA dt (Some dc) (Some dn)] ls cs sig).

(** activities_gen1.go:142-190, one place; the card number in bytes 0-17 is
    skipped *)
Definition unmarshal_vu_place (d : bytes) : res vu_place :=
  let* t := unmarshal_time (sub d 18 4) in
  let* e := unmarshal_enum entry_type_daily_work_period_table (nth 22 d 0) in
  let* c := unmarshal_enum nation_numeric_table (nth 23 d 0) in
  let* o := unmarshal_odometer (sub d 25 3) in
  Ok (mkVP t e c (sub d 24 1) o).

(** activities_gen1.go:55-236 unmarshalActivitiesGen1 *)
Definition unmarshal_activities_gen1 (value : bytes) : res activities_gen1 :=
  let d := value in
  let* (b, d) := eat 4 d in
  let* date := unmarshal_time b in
  let* (b, d) := eat 3 d in
  let* odo := unmarshal_odometer b in
  let* (b, d) := eat 2 d in
  let* (iws, d) := eat_records (unmarshal_card_iw cm) 129 (Z.to_nat (be b)) d in
  let* (b, d) := eat 2 d in
  let* (chs, d) := eat_records unmarshal_activity_change 2 (Z.to_nat (be b)) d in
  let* (b, d) := eat 1 d in
  let* (ps, d) := eat_records unmarshal_vu_place 28 (Z.to_nat (nth 0 b 0)) d in
  let* (b, d) := eat 2 d in
  let* (cs, d) := eat_records unmarshal_spec_cond 5 (Z.to_nat (be b)) d in
  let* (sig, d) := eat 128 d in
  let* _ := guard (length d =? 0)%nat in
  Ok (mkActs value date odo iws chs ps cs sig).

End WithCharmaps2.

(** events_faults_gen1.go:25-40, detailed_speed_gen1.go:21-36,
    technical_data_gen1.go:27-42 *)
Definition unmarshal_raw_signed (value : bytes) : res raw_signed :=
  let* _ := guard (negb (length value <? 128)%nat) in
  Ok (mkRS value (skipn (length value - 128) value)).

(** ** Second-generation transfers *)

(** The number of record arrays the unmarshal functions walk over:
    overview_gen2_v1.go:35-117, overview_gen2_v2.go:37-119,
    activities_gen2_v1.go:31-92, activities_gen2_v2.go:31-92,
    events_faults_gen2_v1.go:14-56, events_faults_gen2_v2.go:14-56,
    detailed_speed_gen2.go:15-45, technical_data_gen2_v1.go:14-60,
    technical_data_gen2_v2.go:14-60. *)
Definition arrays_parsed (t : transfer_type) : nat :=
  match t with
  | OVERVIEW_GEN2_V1 | OVERVIEW_GEN2_V2 => 11
  | ACTIVITIES_GEN2_V1 | ACTIVITIES_GEN2_V2 => 7
  | EVENTS_AND_FAULTS_GEN2_V1 | EVENTS_AND_FAULTS_GEN2_V2 => 5
  | DETAILED_SPEED_GEN2 => 2
  | TECHNICAL_DATA_GEN2_V1 | TECHNICAL_DATA_GEN2_V2 => 8
  | _ => 0
  end.

(** Each of these functions keeps the value and checks that the record arrays fill
    it. *)
Definition unmarshal_gen2 (t : transfer_type) (value : bytes) : res bytes :=
  let* o := skip_record_arrays (arrays_parsed t) value 0 in
  let* _ := guard (o =? len value) in
  Ok value.

(** ** Files *)

(** vehicle_unit_file_gen1.proto *)
Record vu_gen1 := mkG1 {
  g1_overview : option overview_gen1; g1_activities : list activities_gen1;
  g1_events : list raw_signed; g1_speed : list raw_signed; g1_technical : list raw_signed }.

(** vehicle_unit_file_gen2_v1.proto, vehicle_unit_file_gen2_v2.proto: of each
    transfer the raw_data field, the only one the code sets.  The field
    download_interface_version of the latter is never set. *)
Record vu_gen2 := mkG2 {
  g2_overview : option bytes; g2_activities : list bytes; g2_events : list bytes;
  g2_speed : list bytes; g2_technical : list bytes }.

(** vehicle_unit_file.proto: generation, version and the payload they select *)
Inductive vu_file := VuGen1 (f : vu_gen1) | VuGen2V1 (f : vu_gen2) | VuGen2V2 (f : vu_gen2).

Section WithCharmaps3.
Variable cm : Z -> Z -> Z.

(** vehicle_unit_file.go:118-165 unmarshalVehicleUnitFileGen1, one record *)
Definition step_gen1 (f : vu_gen1) (r : vu_record) : res vu_gen1 :=
  match vr_type r with
  | OVERVIEW_GEN1 =>
      let* o := unmarshal_overview_gen1 cm (vr_value r) in
      Ok (mkG1 (Some o) (g1_activities f) (g1_events f) (g1_speed f) (g1_technical f))
  | ACTIVITIES_GEN1 =>
      let* a := unmarshal_activities_gen1 cm (vr_value r) in
      Ok (mkG1 (g1_overview f) (g1_activities f ++ [a]) (g1_events f) (g1_speed f) (g1_technical f))
  | EVENTS_AND_FAULTS_GEN1 =>
      let* x := unmarshal_raw_signed (vr_value r) in
      Ok (mkG1 (g1_overview f) (g1_activities f) (g1_events f ++ [x]) (g1_speed f) (g1_technical f))
  | DETAILED_SPEED_GEN1 =>
      let* x := unmarshal_raw_signed (vr_value r) in
      Ok (mkG1 (g1_overview f) (g1_activities f) (g1_events f) (g1_speed f ++ [x]) (g1_technical f))
  | TECHNICAL_DATA_GEN1 =>
      let* x := unmarshal_raw_signed (vr_value r) in
      Ok (mkG1 (g1_overview f) (g1_activities f) (g1_events f) (g1_speed f) (g1_technical f ++ [x]))
  | _ => fail
  end.

(** The role of a second-generation transfer type in a file of version [v2]:
    vehicle_unit_file.go:167-214 unmarshalVehicleUnitFileGen2V1 and 216-268
    unmarshalVehicleUnitFileGen2V2. *)
Inductive role := R_overview | R_activities | R_events | R_speed | R_technical | R_skip.

Definition role_gen2 (v2 : bool) (t : transfer_type) : option role :=
  match t, v2 with
  | OVERVIEW_GEN2_V1, false | OVERVIEW_GEN2_V2, true => Some R_overview
  | ACTIVITIES_GEN2_V1, false | ACTIVITIES_GEN2_V2, true => Some R_activities
  | EVENTS_AND_FAULTS_GEN2_V1, false | EVENTS_AND_FAULTS_GEN2_V2, true => Some R_events
  | DETAILED_SPEED_GEN2, _ => Some R_speed
  | TECHNICAL_DATA_GEN2_V1, false | TECHNICAL_DATA_GEN2_V2, true => Some R_technical
  | DOWNLOAD_INTERFACE_VERSION, true => Some R_skip
  | _, _ => None
  end.

Definition step_gen2 (v2 : bool) (f : vu_gen2) (r : vu_record) : res vu_gen2 :=
  match role_gen2 v2 (vr_type r) with
  | None => fail
  | Some R_skip => Ok f
  | Some R_overview =>
      let* x := unmarshal_gen2 (vr_type r) (vr_value r) in
      Ok (mkG2 (Some x) (g2_activities f) (g2_events f) (g2_speed f) (g2_technical f))
  | Some R_activities =>
      let* x := unmarshal_gen2 (vr_type r) (vr_value r) in
      Ok (mkG2 (g2_overview f) (g2_activities f ++ [x]) (g2_events f) (g2_speed f) (g2_technical f))
  | Some R_events =>
      let* x := unmarshal_gen2 (vr_type r) (vr_value r) in
      Ok (mkG2 (g2_overview f) (g2_activities f) (g2_events f ++ [x]) (g2_speed f) (g2_technical f))
  | Some R_speed =>
      let* x := unmarshal_gen2 (vr_type r) (vr_value r) in
      Ok (mkG2 (g2_overview f) (g2_activities f) (g2_events f) (g2_speed f ++ [x]) (g2_technical f))
  | Some R_technical =>
      let* x := unmarshal_gen2 (vr_type r) (vr_value r) in
      Ok (mkG2 (g2_overview f) (g2_activities f) (g2_events f) (g2_speed f) (g2_technical f ++ [x]))
  end.

Fixpoint fold_res {A B} (f : A -> B -> res A) (a : A) (l : list B) : res A :=
  match l with
  | [] => Ok a
  | b :: t => let* a' := f a b in fold_res f a' t
  end.

Definition empty_gen1 : vu_gen1 := mkG1 None [] [] [] [].
Definition empty_gen2 : vu_gen2 := mkG2 None [] [] [] [].

(** vehicle_unit_file.go:103-115 hasGen2V2Transfers *)
Definition has_gen2_v2_transfers (rs : list vu_record) : bool :=
  existsb (fun r => match vr_type r with
                    | DOWNLOAD_INTERFACE_VERSION | OVERVIEW_GEN2_V2 | ACTIVITIES_GEN2_V2
                    | EVENTS_AND_FAULTS_GEN2_V2 | TECHNICAL_DATA_GEN2_V2 => true
                    | _ => false
                    end) rs.

(** vehicle_unit_file.go:48-97 unmarshalVehicleUnitFile *)
Definition unmarshal_vu (d : bytes) : res vu_file :=
  let* rs := unmarshal_raw_vu d in
  match rs with
  | [] => fail
  | r :: _ =>
      let g := transfer_generation (vr_type r) in
      if g =? GENERATION_1 then
        let* f := fold_res step_gen1 empty_gen1 rs in Ok (VuGen1 f)
      else if g =? GENERATION_2 then
        if has_gen2_v2_transfers rs then
          let* f := fold_res (step_gen2 true) empty_gen2 rs in Ok (VuGen2V2 f)
        else
          let* f := fold_res (step_gen2 false) empty_gen2 rs in Ok (VuGen2V1 f)
      else fail
  end.

End WithCharmaps3.

(** vehicle_unit_file.go:17-27 MarshalVehicleUnitFile, 306-316 appendVU: fails for
    nil and for everything else. *)
Definition marshal_vu (o : option vu_file) : res bytes :=
  match o with
  | None => fail
  | Some _ => fail
  end.

(** ** Writing an overview

    overview_gen1.go:319-543 appendOverviewGen1.  Not reachable through the API
    (only the package's tests call it). *)

Definition paint (c : bytes) (o : nat) (n : nat) (src : bytes) : bytes := copy_into c o (o + n) src.

Fixpoint paint_records {X} (f : bytes -> nat -> X -> res bytes) (c : bytes) (o n : nat) (l : list X)
  : res bytes :=
  match l with
  | [] => Ok c
  | x :: t => let* c := f c o x in paint_records f c (o + n)%nat n t
  end.

Definition paint_lock (c : bytes) (o : nat) (l : company_lock) : res bytes :=
  let* b := append_time (cl_in l) in
  let c := paint c o 4 b in
  let* b := append_time (cl_out l) in
  let c := paint c (o + 4) 4 b in
  let* b := append_string_value (cl_name l) in
  let c := paint c (o + 8) 36 b in
  let* b := append_string_value (cl_address l) in
  let c := paint c (o + 44) 36 b in
  let* b := append_full_card_number (cl_card l) in
  Ok (paint c (o + 80) 18 b).

Definition paint_control (c : bytes) (o : nat) (x : vu_control) : res bytes :=
  let* b := append_control_type (vc_type x) in
  let c := paint c o 1 b in
  let* b := append_time (vc_time x) in
  let c := paint c (o + 1) 4 b in
  let* b := append_full_card_number (vc_card x) in
  let c := paint c (o + 5) 18 b in
  let* b := append_time (vc_begin x) in
  let c := paint c (o + 23) 4 b in
  let* b := append_time (vc_end x) in
  Ok (paint c (o + 27) 4 b).

Definition append_overview_gen1 (o : option overview_gen1) : res bytes :=
  match o with
  | None => fail
  | Some x =>
      let locks := length (ov_locks x) in
      let controls := length (ov_controls x) in
      let size := (491 + 1 + locks * 98 + 1 + controls * 31 + 128)%nat in
      let c := if (length (ov_raw x) =? size)%nat then ov_raw x else zeros size in
      let c := paint c 0 194 (ov_ms_cert x) in
      let c := paint c 194 194 (ov_vu_cert x) in
      let* c := match ov_vin x with
                | None => Ok c
                | Some v => let* b := append_ia5 (Some v) in Ok (paint c 388 17 b)
                end in
      let* c := match ov_reg x with
                | None => Ok c
                | Some v => let* b := append_vreg (Some v) in Ok (paint c 405 15 b)
                end in
      let* c := match ov_time x with
                | None => Ok c
                | Some t => let* b := append_time (Some t) in Ok (paint c 420 4 b)
                end in
      let* c := match ov_period x with
                | None => Ok c
                | Some (t, u) =>
                    let* b := append_time t in
                    let c := paint c 424 4 b in
                    let* b := append_time u in
                    Ok (paint c 428 4 b)
                end in
      let driver := marshal_enum_or_zero slot_card_type_table (ov_driver_slot x) in
      let codriver := marshal_enum_or_zero slot_card_type_table (ov_codriver_slot x) in
      let c := set_byte c 432 (Z.lor (u8 (Z.shiftl codriver 4)) (Z.land driver 15)) in
      let* c := match ov_downloads x with
                | [] => Ok c
                | a :: _ =>
                    let* b := append_time (da_time a) in
                    let c := paint c 433 4 b in
                    let* b := append_full_card_number (da_card a) in
                    let c := paint c 437 18 b in
                    let* b := append_string_value (da_name a) in
                    Ok (paint c 455 36 b)
                end in
      let c := set_byte c 491 (u8 (Z.of_nat locks)) in
      let* c := paint_records paint_lock c 492 98 (ov_locks x) in
      let p := (492 + locks * 98)%nat in
      let c := set_byte c p (u8 (Z.of_nat controls)) in
      let* c := paint_records paint_control c (p + 1) 31 (ov_controls x) in
      Ok (paint c (p + 1 + controls * 31) 128 (ov_signature x))
  end.

(** activities_gen1.go:243-266 appendActivitiesGen1 and, with the same body,
    events_faults_gen1.go:43-55, detailed_speed_gen1.go:39-50,
    technical_data_gen1.go:45-56 and the append functions of all
    second-generation transfers: the raw bytes or nothing. *)
Definition append_raw (o : option bytes) : res bytes :=
  match o with
  | None => fail
  | Some raw => if (0 <? length raw)%nat then Ok raw else fail
  end.
