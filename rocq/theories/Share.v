(** Which parts of a parsed message share memory with the caller's buffer.

    Go slices are references: a field set to [data[i:j]] shows whatever the buffer
    holds when the field is read.  Here the buffer is given twice, as it is during
    the call and as it is afterwards, and the parsers of vehicle unit downloads
    are written again with each byte field saying which of the two it shows.
    The setters of the generated code keep the slice they are given
    (e.g. proto/gen/go/wayplatform/connect/tachograph/vu/v1/overview_gen1.pb.go:266-272).
    Strings and numbers are copies. *)

From Verif Require Import Base Enums Chunks DDScalar DDString DDRecord RawTypes RawCard Infer DriverCard
  Vu Api.

(** A slice of the buffer: each byte during the call and afterwards. *)
Notation buffer := (list (Z * Z)).
Definition now (s : buffer) : bytes := map fst s.
Definition later (s : buffer) : bytes := map snd s.

(** Go's [s[i:i+n]]. *)
Definition part (s : buffer) (i n : nat) : buffer := firstn n (skipn i s).

(** internal/dd/ia5_string_value.go:20-42; SetRawData(input) *)
Definition share_ia5 (s : buffer) : res ia5 :=
  let* x := unmarshal_ia5 (now s) in
  Ok (mkIA5 (Some (later s)) (ia5_length x) (ia5_value x)).

(** internal/dd/date.go:21-35; SetRawData(input[:4]) *)
Definition share_date (s : buffer) : res date :=
  let* x := unmarshal_date (now s) in
  Ok (mkDate (Some (later s)) (date_year x) (date_month x) (date_day x)).

(** internal/dd/controltype.go:16-29; SetRawData(input) *)
Definition share_control_type (s : buffer) : res control_type :=
  let* x := unmarshal_control_type (now s) in
  Ok (mkCT (Some (later s)) (ct_card_downloading x) (ct_vu_downloading x) (ct_printing x)
        (ct_display x) (ct_calibration_checking x)).

(** internal/dd/driver_identification.go:21-40 *)
Definition share_driver_id (s : buffer) : res driver_id :=
  let* _ := guard (length s =? 14)%nat in
  let* n := share_ia5 (part s 0 14) in
  Ok (mkDI (Some n)).

(** internal/dd/owner_identification.go:27-67 *)
Definition share_owner_id (s : buffer) : res owner_id :=
  let* _ := guard (length s =? 16)%nat in
  let* a := share_ia5 (part s 0 13) in
  let* b := share_ia5 (part s 13 1) in
  let* c := share_ia5 (part s 14 1) in
  let* e := share_ia5 (part s 15 1) in
  Ok (mkOI (Some a) (Some b) (Some c) (Some e)).

(** internal/dd/full_card_number.go:30-73 *)
Definition share_full_card_number (s : buffer) : res full_card_number :=
  let* _ := guard (length s =? 18)%nat in
  let* t := unmarshal_enum equipment_type_table (nth 0 (now s) 0) in
  let st := nth 1 (now s) 0 in
  let num := part s 2 16 in
  if t =? EQ_DRIVER_CARD then
    let* x := share_driver_id (part num 0 14) in
    Ok (mkFCN t st (Some x) None)
  else if (t =? EQ_WORKSHOP_CARD) || (t =? EQ_COMPANY_CARD) then
    let* x := share_owner_id num in
    Ok (mkFCN t st None (Some x))
  else fail.

Section WithCharmaps.
Variable cm : Z -> Z -> Z.

(** internal/dd/string_value.go:26-49; SetRawData(input) *)
Definition share_string_value (s : buffer) : res string_value :=
  let* x := unmarshal_string_value cm (now s) in
  Ok (mkSV (Some (later s)) (sv_encoding x) (sv_length x) (sv_value x)).

(** internal/dd/vehicle_registration.go:23-48 *)
Definition share_vreg (s : buffer) : res vreg :=
  let* _ := guard (length s =? 15)%nat in
  let nation := match unmarshal_enum nation_numeric_table (nth 0 (now s) 0) with
                | Ok n => n | _ => ENUM_UNRECOGNIZED end in
  let* num := share_string_value (part s 1 14) in
  Ok (DDString.mkVR nation (Some num)).

(** internal/dd/holder_name.go:28-57 *)
Definition share_holder_name (s : buffer) : res holder_name :=
  let* _ := guard (length s =? 72)%nat in
  let* a := share_string_value (part s 0 36) in
  let* b := share_string_value (part s 36 36) in
  Ok (mkHN (Some a) (Some b)).

(** internal/dd/previous_vehicle_info.go:19-48; SetRawData(data) *)
Definition share_previous_vehicle (s : buffer) : res previous_vehicle :=
  let* _ := guard (length s =? 19)%nat in
  let* v := share_vreg (part s 0 15) in
  let* t := unmarshal_time (now (part s 15 4)) in
  Ok (mkPV (later s) (Some v) t).

(** internal/dd/vu_card_iw_record.go:39-138; SetRawData(data) *)
Definition share_card_iw (s : buffer) : res card_iw :=
  let* _ := guard (length s =? 129)%nat in
  let* h := share_holder_name (part s 0 72) in
  let* n := share_full_card_number (part s 72 18) in
  let* e := share_date (part s 90 4) in
  let* ti := unmarshal_time (now (part s 94 4)) in
  let* oi := unmarshal_odometer (now (part s 98 3)) in
  let* k := unmarshal_enum card_slot_number_table (nth 101 (now s) 0) in
  let* tw := unmarshal_time (now (part s 102 4)) in
  let* ow := unmarshal_odometer (now (part s 106 3)) in
  let* p := share_previous_vehicle (part s 109 19) in
  Ok (mkIW (later s) (Some h) (Some n) (Some e) ti oi k tw ow (Some p) (negb (nth 128 (now s) 0 =? 0))).

(** overview_gen1.go:189-234, one lock *)
Definition share_lock (s : buffer) : res company_lock :=
  let* a := unmarshal_time (now (part s 0 4)) in
  let* b := unmarshal_time (now (part s 4 4)) in
  let* n := share_string_value (part s 8 36) in
  let* t := share_string_value (part s 44 36) in
  let* c := share_full_card_number (part s 80 18) in
  Ok (mkCL a b (Some n) (Some t) (Some c)).

(** overview_gen1.go:250-294, one control *)
Definition share_vu_control (s : buffer) : res vu_control :=
  let* t := share_control_type (part s 0 1) in
  let* a := unmarshal_time (now (part s 1 4)) in
  let* c := share_full_card_number (part s 5 18) in
  let* b := unmarshal_time (now (part s 23 4)) in
  let* e := unmarshal_time (now (part s 27 4)) in
  Ok (mkVC (Some t) a (Some c) b e).

(** activities_gen1.go:142-190, one place; SetRegion(value[i:i+1]) *)
Definition share_vu_place (s : buffer) : res vu_place :=
  let* t := unmarshal_time (now (part s 18 4)) in
  let* e := unmarshal_enum entry_type_daily_work_period_table (nth 22 (now s) 0) in
  let* c := unmarshal_enum nation_numeric_table (nth 23 (now s) 0) in
  let* o := unmarshal_odometer (now (part s 25 3)) in
  Ok (mkVP t e c (later (part s 24 1)) o).

(** The next [n] bytes behind [if offset+n > len(value) { return error }]. *)
Definition take (n : nat) (s : buffer) : res (buffer * buffer) :=
  let* _ := guard (negb (length s <? n)%nat) in
  Ok (firstn n s, skipn n s).

(** [k] records of [n] bytes. *)
Fixpoint take_records {X} (un : buffer -> res X) (n k : nat) (s : buffer) : res (list X * buffer) :=
  match k with
  | O => Ok ([], s)
  | S j =>
      let* (b, s) := take n s in
      let* x := un b in
      let* (xs, s) := take_records un n j s in
      Ok (x :: xs, s)
  end.

(** overview_gen1.go:61-312 unmarshalOverviewGen1; SetRawData(value), the
    certificates and the signature are set to slices of the value *)
Definition share_overview_gen1 (value : buffer) : res overview_gen1 :=
  let d := value in
  let* (ms, d) := take 194 d in
  let* (vc, d) := take 194 d in
  let* (b, d) := take 17 d in
  let* vin := share_ia5 b in
  let* (b, d) := take 15 d in
  let* reg := share_vreg b in
  let* (b, d) := take 4 d in
  let* t := unmarshal_time (now b) in
  let* (b, d) := take 8 d in
  let* tmin := unmarshal_time (now (part b 0 4)) in
  let* tmax := unmarshal_time (now (part b 4 4)) in
  let* (b, d) := take 1 d in
  let slots := nth 0 (now b) 0 in
  let* (b, d) := take 58 d in
  let* dt := unmarshal_time (now (part b 0 4)) in
  let* dc := share_full_card_number (part b 4 18) in
  let* dn := share_string_value (part b 22 36) in
  let* (b, d) := take 1 d in
  let locks := Z.to_nat (nth 0 (now b) 0) in
  let* _ := guard (negb (length d <? locks * 98)%nat) in
  let* (ls, d) := take_records share_lock 98 locks d in
  let* (b, d) := take 1 d in
  let controls := Z.to_nat (nth 0 (now b) 0) in
  let* _ := guard (negb (length d <? controls * 31)%nat) in
  let* (cs, d) := take_records share_vu_control 31 controls d in
  let* (sig, d) := take 128 d in
  let* _ := guard (length d =? 0)%nat in
  Ok (mkOv (later value) (later ms) (later vc) (Some vin) (Some reg) t (Some (tmin, tmax))
        (Z.land slots 15) (Z.land (Z.shiftr slots 4) 15)
        [mkDA dt (Some dc) (Some dn)] ls cs (later sig)).

(** activities_gen1.go:55-236 unmarshalActivitiesGen1; the raw bytes of activity
    changes are clones (internal/dd/activity_change_info.go:33) *)
Definition share_activities_gen1 (value : buffer) : res activities_gen1 :=
  let d := value in
  let* (b, d) := take 4 d in
  let* date := unmarshal_time (now b) in
  let* (b, d) := take 3 d in
  let* odo := unmarshal_odometer (now b) in
  let* (b, d) := take 2 d in
  let* (iws, d) := take_records share_card_iw 129 (Z.to_nat (be (now b))) d in
  let* (b, d) := take 2 d in
  let* (chs, d) := take_records (fun s => unmarshal_activity_change (now s)) 2 (Z.to_nat (be (now b))) d in
  let* (b, d) := take 1 d in
  let* (ps, d) := take_records share_vu_place 28 (Z.to_nat (nth 0 (now b) 0)) d in
  let* (b, d) := take 2 d in
  let* (cs, d) := take_records (fun s => unmarshal_spec_cond (now s)) 5 (Z.to_nat (be (now b))) d in
  let* (sig, d) := take 128 d in
  let* _ := guard (length d =? 0)%nat in
  Ok (mkActs (later value) date odo iws chs ps cs (later sig)).

(** events_faults_gen1.go:25-40, detailed_speed_gen1.go:21-36,
    technical_data_gen1.go:27-42 *)
Definition share_raw_signed (value : buffer) : res raw_signed :=
  let* _ := guard (negb (length value <? 128)%nat) in
  Ok (mkRS (later value) (later (skipn (length value - 128) value))).

(** The second-generation transfers (as for [unmarshal_gen2]); SetRawData(value) *)
Definition share_gen2 (t : transfer_type) (value : buffer) : res bytes :=
  let* _ := unmarshal_gen2 t (now value) in
  Ok (later value).

(** raw_vehicle_unit_file.go:25-67: the values are slices of the buffer; tag and
    type are copies. *)
Record shared_record := mkShared { sh_type : transfer_type; sh_value : buffer }.

Fixpoint share_split (fuel : nat) (s : buffer) : res (list shared_record) :=
  match fuel with
  | O => Ok []
  | S k =>
      if (length s =? 0)%nat then Ok []
      else
        let* _ := guard (negb (length s <? 2)%nat) in
        match find_transfer_type (be (now (part s 0 2))) with
        | None => fail
        | Some t =>
            let rest := skipn 2 s in
            let* n := size_of_transfer_value t (now rest) in
            let* _ := guard (negb (len (now rest) <? n)) in
            let* rs := share_split k (skipn (Z.to_nat n) rest) in
            Ok (mkShared t (firstn (Z.to_nat n) rest) :: rs)
        end
  end.

(** vehicle_unit_file.go:118-165 unmarshalVehicleUnitFileGen1, one record *)
Definition share_step_gen1 (f : vu_gen1) (r : shared_record) : res vu_gen1 :=
  match sh_type r with
  | OVERVIEW_GEN1 =>
      let* o := share_overview_gen1 (sh_value r) in
      Ok (mkG1 (Some o) (g1_activities f) (g1_events f) (g1_speed f) (g1_technical f))
  | ACTIVITIES_GEN1 =>
      let* a := share_activities_gen1 (sh_value r) in
      Ok (mkG1 (g1_overview f) (g1_activities f ++ [a]) (g1_events f) (g1_speed f) (g1_technical f))
  | EVENTS_AND_FAULTS_GEN1 =>
      let* x := share_raw_signed (sh_value r) in
      Ok (mkG1 (g1_overview f) (g1_activities f) (g1_events f ++ [x]) (g1_speed f) (g1_technical f))
  | DETAILED_SPEED_GEN1 =>
      let* x := share_raw_signed (sh_value r) in
      Ok (mkG1 (g1_overview f) (g1_activities f) (g1_events f) (g1_speed f ++ [x]) (g1_technical f))
  | TECHNICAL_DATA_GEN1 =>
      let* x := share_raw_signed (sh_value r) in
      Ok (mkG1 (g1_overview f) (g1_activities f) (g1_events f) (g1_speed f) (g1_technical f ++ [x]))
  | _ => fail
  end.

(** vehicle_unit_file.go:167-214 unmarshalVehicleUnitFileGen2V1 and 216-268
    unmarshalVehicleUnitFileGen2V2, one record *)
Definition share_step_gen2 (v2 : bool) (f : vu_gen2) (r : shared_record) : res vu_gen2 :=
  match role_gen2 v2 (sh_type r) with
  | None => fail
  | Some R_skip => Ok f
  | Some R_overview =>
      let* x := share_gen2 (sh_type r) (sh_value r) in
      Ok (mkG2 (Some x) (g2_activities f) (g2_events f) (g2_speed f) (g2_technical f))
  | Some R_activities =>
      let* x := share_gen2 (sh_type r) (sh_value r) in
      Ok (mkG2 (g2_overview f) (g2_activities f ++ [x]) (g2_events f) (g2_speed f) (g2_technical f))
  | Some R_events =>
      let* x := share_gen2 (sh_type r) (sh_value r) in
      Ok (mkG2 (g2_overview f) (g2_activities f) (g2_events f ++ [x]) (g2_speed f) (g2_technical f))
  | Some R_speed =>
      let* x := share_gen2 (sh_type r) (sh_value r) in
      Ok (mkG2 (g2_overview f) (g2_activities f) (g2_events f) (g2_speed f ++ [x]) (g2_technical f))
  | Some R_technical =>
      let* x := share_gen2 (sh_type r) (sh_value r) in
      Ok (mkG2 (g2_overview f) (g2_activities f) (g2_events f) (g2_speed f) (g2_technical f ++ [x]))
  end.

(** vehicle_unit_file.go:103-115 hasGen2V2Transfers *)
Definition share_has_v2 (rs : list shared_record) : bool :=
  existsb (fun r => match sh_type r with
                    | DOWNLOAD_INTERFACE_VERSION | OVERVIEW_GEN2_V2 | ACTIVITIES_GEN2_V2
                    | EVENTS_AND_FAULTS_GEN2_V2 | TECHNICAL_DATA_GEN2_V2 => true
                    | _ => false
                    end) rs.

(** vehicle_unit_file.go:48-97 unmarshalVehicleUnitFile *)
Definition share_vu (s : buffer) : res vu_file :=
  let* rs := share_split (length s) s in
  match rs with
  | [] => fail
  | r :: _ =>
      let g := transfer_generation (sh_type r) in
      if g =? GENERATION_1 then
        let* f := fold_res share_step_gen1 empty_gen1 rs in Ok (VuGen1 f)
      else if g =? GENERATION_2 then
        if share_has_v2 rs then
          let* f := fold_res (share_step_gen2 true) empty_gen2 rs in Ok (VuGen2V2 f)
        else
          let* f := fold_res (share_step_gen2 false) empty_gen2 rs in Ok (VuGen2V1 f)
      else fail
  end.

(** unmarshal.go:16-63 UnmarshalFile on a buffer that holds [d], seen when the
    buffer holds [w].  The records of a card are copies
    (internal/card/rawcardfile.go:88-91), so nothing of a card shows the buffer. *)
Definition seen_file (d w : bytes) : res file :=
  if (length d <? 2)%nat then Err EEOF
  else if nth 0 d 0 =? 0x76 then
    let* v := share_vu (combine d w) in
    Ok (mkFile FILE_VEHICLE_UNIT (Some v) None None)
  else if be (sub d 0 2) =? 0x0002 then
    let* rs := unmarshal_raw_card_file d in
    if infer_file_type rs =? DRIVER_CARD then
      let* c := unmarshal_driver_card cm rs in
      Ok (mkFile FILE_DRIVER_CARD None (Some c) None)
    else Ok (mkFile FILE_RAW_CARD None None (Some rs))
  else fail.

End WithCharmaps.
