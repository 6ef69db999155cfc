(** Composite records of the data dictionary (internal/dd). *)

From Verif Require Import Base Enums DDScalar Utf8 DDString.

(** ** DriverIdentification *)

Record driver_id := mkDI { di_number : option ia5 }.

(** internal/dd/driver_identification.go:21-40. *)
Definition unmarshal_driver_id (d : bytes) : res driver_id :=
  let* _ := guard (length d =? 14)%nat in
  let* n := unmarshal_ia5 (sub d 0 14) in
  Ok (mkDI (Some n)).

(** internal/dd/driver_identification.go:54-61. *)
Definition append_driver_id (o : option driver_id) : res bytes :=
  match o with
  | None => fail
  | Some d => append_ia5 (di_number d)
  end.

(** ** OwnerIdentification *)

Record owner_id := mkOI {
  oi_number : option ia5; oi_consecutive : option ia5;
  oi_replacement : option ia5; oi_renewal : option ia5 }.

(** internal/dd/owner_identification.go:27-67. *)
Definition unmarshal_owner_id (d : bytes) : res owner_id :=
  let* _ := guard (length d =? 16)%nat in
  let* n := unmarshal_ia5 (sub d 0 13) in
  let* c := unmarshal_ia5 (sub d 13 1) in
  let* r := unmarshal_ia5 (sub d 14 1) in
  let* w := unmarshal_ia5 (sub d 15 1) in
  Ok (mkOI (Some n) (Some c) (Some r) (Some w)).

(** internal/dd/owner_identification.go:87-118. *)
Definition append_owner_id (o : option owner_id) : res bytes :=
  match o with
  | None => fail
  | Some x =>
      let* n := append_ia5 (oi_number x) in
      let* c := append_ia5 (oi_consecutive x) in
      let* r := append_ia5 (oi_replacement x) in
      let* w := append_ia5 (oi_renewal x) in
      Ok (n ++ c ++ r ++ w)
  end.

(** ** FullCardNumber *)

(** Numbers of enum EquipmentType (proto dd/v1/equipment_type.proto). *)
Definition EQ_DRIVER_CARD : Z := 3.
Definition EQ_WORKSHOP_CARD : Z := 4.
Definition EQ_COMPANY_CARD : Z := 6.

Record full_card_number := mkFCN {
  fcn_type : Z; fcn_state : Z;
  fcn_driver : option driver_id; fcn_owner : option owner_id }.

(** internal/dd/full_card_number.go:30-73.  The issuing state byte is cast to the
    enumeration without a look-up. *)
Definition unmarshal_full_card_number (d : bytes) : res full_card_number :=
  let* _ := guard (length d =? 18)%nat in
  let* t := unmarshal_enum equipment_type_table (nth 0 d 0) in
  let st := nth 1 d 0 in
  let num := sub d 2 16 in
  if t =? EQ_DRIVER_CARD then
    let* x := unmarshal_driver_id (sub num 0 14) in
    Ok (mkFCN t st (Some x) None)
  else if (t =? EQ_WORKSHOP_CARD) || (t =? EQ_COMPANY_CARD) then
    let* x := unmarshal_owner_id num in
    Ok (mkFCN t st None (Some x))
  else fail.

(** internal/dd/full_card_number.go:96-143. *)
Definition append_full_card_number (o : option full_card_number) : res bytes :=
  match o with
  | None => fail
  | Some n =>
      let* t := marshal_enum equipment_type_table (fcn_type n) in
      let* body :=
        (if fcn_type n =? EQ_DRIVER_CARD then
           match fcn_driver n with
           | Some x => let* b := append_driver_id (Some x) in Ok (b ++ [0; 0])
           | None => Ok (zeros 16)
           end
         else if (fcn_type n =? EQ_WORKSHOP_CARD) || (fcn_type n =? EQ_COMPANY_CARD) then
           match fcn_owner n with
           | Some x => append_owner_id (Some x)
           | None => Ok (zeros 16)
           end
         else Ok (zeros 16)) in
      Ok (t :: u8 (fcn_state n) :: body)
  end.

(** internal/dd/full_card_number.go:147-165 (maxLen is not used by the code). *)
Definition append_full_card_number_as_string (o : option full_card_number) : res bytes :=
  match o with
  | None => fail
  | Some n =>
      if fcn_type n =? EQ_DRIVER_CARD then
        match fcn_driver n with
        | Some x => append_ia5 (di_number x)
        | None => append_string_value None
        end
      else if (fcn_type n =? EQ_WORKSHOP_CARD) || (fcn_type n =? EQ_COMPANY_CARD) then
        match fcn_owner n with
        | Some x => append_ia5 (oi_number x)
        | None => append_string_value None
        end
      else append_string_value None
  end.

(** ** FullCardNumberAndGeneration *)

Record card_number_gen := mkCNG { cng_number : option full_card_number; cng_generation : Z }.

(** internal/dd/full_card_number_and_generation.go:23-54. *)
Definition unmarshal_card_number_gen (d : bytes) : res card_number_gen :=
  let* _ := guard (negb (length d <? 1)%nat) in
  let* g := unmarshal_enum generation_table (nth (length d - 1) d 0) in
  let* n := unmarshal_full_card_number (firstn (length d - 1) d) in
  Ok (mkCNG (Some n) g).

(** internal/dd/full_card_number_and_generation.go:72-95. *)
Definition append_card_number_gen (o : option card_number_gen) : res bytes :=
  match o with
  | None => fail
  | Some x =>
      let* n := match cng_number x with
                | Some n => append_full_card_number (Some n)
                | None => Ok []
                end in
      let* g := marshal_enum generation_table (cng_generation x) in
      Ok (n ++ [g])
  end.

(** ** ExtendedSerialNumber *)

Record ext_serial := mkES {
  es_serial : Z; es_month_year : option month_year; es_type : Z; es_manufacturer : Z }.

(** internal/dd/extended_serial_number.go:30-64. *)
Definition unmarshal_ext_serial (d : bytes) : res ext_serial :=
  let* _ := guard (length d =? 8)%nat in
  let* my := unmarshal_month_year (sub d 4 2) in
  let t := match unmarshal_enum equipment_type_table (nth 6 d 0) with
           | Ok v => v | _ => ENUM_UNRECOGNIZED end in
  Ok (mkES (be (sub d 0 4)) (Some my) t (nth 7 d 0)).

(** internal/dd/extended_serial_number.go:86-113. *)
Definition append_ext_serial (o : option ext_serial) : res bytes :=
  match o with
  | None => fail
  | Some e =>
      let* my := append_month_year (es_month_year e) in
      let* t := marshal_enum equipment_type_table (es_type e) in
      Ok (to_be 4 (es_serial e) ++ my ++ [t; u8 (es_manufacturer e)])
  end.

(** internal/dd/extended_serial_number.go:117-166. *)
Definition append_ext_serial_as_string (o : option ext_serial) (max_len : nat) : res bytes :=
  match o with
  | None => fail
  | Some e =>
      let c := zeros 8 in
      let c := if es_serial e =? 0 then c else copy_into c 0 4 (to_be 4 (es_serial e)) in
      let* my := append_month_year (es_month_year e) in
      let c := if (2 <=? length my)%nat then copy_into c 4 6 (firstn 2 my) else c in
      let* c := (if es_type e =? ENUM_UNSPECIFIED then Ok c
                 else let* t := marshal_enum equipment_type_table (es_type e) in
                      Ok (set_byte c 6 t)) in
      let c := if es_manufacturer e =? 0 then c else set_byte c 7 (u8 (es_manufacturer e)) in
      Ok (firstn max_len c ++ zeros (max_len - 8))
  end.

(** ** GNSSPlaceRecord *)

Record gnss_place := mkGP {
  gp_time : option timestamp; gp_accuracy : Z; gp_geo : option geo }.

(** internal/dd/gnss_place_record.go:28-61. *)
Definition unmarshal_gnss_place (d : bytes) : res gnss_place :=
  let* _ := guard (length d =? 11)%nat in
  let* t := unmarshal_time (sub d 0 4) in
  let* g := unmarshal_geo (sub d 5 6) in
  Ok (mkGP t (nth 4 d 0) (Some g)).

(** internal/dd/gnss_place_record.go:82-109. *)
Definition append_gnss_place (o : option gnss_place) : res bytes :=
  match o with
  | None => Ok (zeros 11)
  | Some r =>
      let* t := append_time (gp_time r) in
      let* _ := guard (negb ((gp_accuracy r <? 0) || (gp_accuracy r >? 255))) in
      Ok (t ++ [u8 (gp_accuracy r)] ++ append_geo (gp_geo r))
  end.

(** ** GNSSPlaceAuthRecord *)

Record gnss_place_auth := mkGPA {
  gpa_time : option timestamp; gpa_accuracy : Z; gpa_geo : option geo;
  gpa_auth : Z; gpa_auth_unrecognized : Z }.

(** internal/dd/gnss_place_auth_record.go:28-69. *)
Definition unmarshal_gnss_place_auth (d : bytes) : res gnss_place_auth :=
  let* _ := guard (length d =? 12)%nat in
  let* t := unmarshal_time (sub d 0 4) in
  let* g := unmarshal_geo (sub d 5 6) in
  let b := nth 11 d 0 in
  match unmarshal_enum position_authentication_status_table b with
  | Ok v => Ok (mkGPA t (nth 4 d 0) (Some g) v 0)
  | _ => Ok (mkGPA t (nth 4 d 0) (Some g) ENUM_UNRECOGNIZED b)
  end.

(** internal/dd/gnss_place_auth_record.go:90-132. *)
Definition append_gnss_place_auth (o : option gnss_place_auth) : res bytes :=
  match o with
  | None => Ok (zeros 12)
  | Some r =>
      let* t := append_time (gpa_time r) in
      let* a := (if gpa_auth r =? ENUM_UNRECOGNIZED then Ok (u8 (gpa_auth_unrecognized r))
                 else marshal_enum position_authentication_status_table (gpa_auth r)) in
      Ok (t ++ [u8 (gpa_accuracy r)] ++ append_geo (gpa_geo r) ++ [a])
  end.

(** ** CardVehicleRecord *)

(** A canvas whose raw data counts only when non-empty. *)
Definition raw_canvas_nonempty (n : nat) (raw : bytes) : res bytes :=
  if (0 <? length raw)%nat then raw_canvas n (Some raw) else Ok (zeros n).

Record card_vehicle := mkCV {
  cv_raw : bytes; cv_odo_begin : Z; cv_odo_end : Z;
  cv_first_use : option timestamp; cv_last_use : option timestamp;
  cv_reg : option vreg; cv_counter : option bcd_string }.

(** internal/dd/card_vehicle_record.go:25-82. *)
Definition unmarshal_card_vehicle (cm : Z -> Z -> Z) (d : bytes) : res card_vehicle :=
  let* _ := guard (length d =? 31)%nat in
  let* f := unmarshal_time (sub d 6 4) in
  let* l := unmarshal_time (sub d 10 4) in
  let* v := unmarshal_vreg cm (sub d 14 15) in
  let* c := unmarshal_bcd_string (sub d 29 2) in
  Ok (mkCV d (be (sub d 0 3)) (be (sub d 3 3)) f l (Some v) (Some c)).

(** internal/dd/card_vehicle_record.go:85-141. *)
Definition append_card_vehicle (r : card_vehicle) : res bytes :=
  let* c := raw_canvas_nonempty 31 (cv_raw r) in
  let c := copy_into c 0 3 (append_odometer (cv_odo_begin r)) in
  let c := copy_into c 3 6 (append_odometer (cv_odo_end r)) in
  let* f := append_time (cv_first_use r) in
  let c := copy_into c 6 10 f in
  let* l := append_time (cv_last_use r) in
  let c := copy_into c 10 14 l in
  let* v := append_vreg (cv_reg r) in
  let c := copy_into c 14 29 v in
  let* b := append_bcd_string (cv_counter r) in
  Ok (copy_into c 29 31 b).

(** ** CardVehicleRecordG2 *)

Record card_vehicle_g2 := mkCV2 {
  cv2_raw : bytes; cv2_odo_begin : Z; cv2_odo_end : Z;
  cv2_first_use : option timestamp; cv2_last_use : option timestamp;
  cv2_reg : option vreg; cv2_counter : option bcd_string; cv2_vin : bytes }.

(** strings.TrimRight(s, "\x00 "): an ASCII-only cut set trims bytes. *)
Fixpoint trim_right_bytes (cut : Z -> bool) (l : bytes) : bytes :=
  match l with
  | [] => []
  | b :: t =>
      match trim_right_bytes cut t with
      | [] => if cut b then [] else [b]
      | t' => b :: t'
      end
  end.

Definition vin_cut (b : Z) : bool := (b =? 0) || (b =? 32).

(** internal/dd/card_vehicle_record_g2.go:26-89. *)
Definition unmarshal_card_vehicle_g2 (cm : Z -> Z -> Z) (d : bytes) : res card_vehicle_g2 :=
  let* _ := guard (length d =? 48)%nat in
  let* f := unmarshal_time (sub d 6 4) in
  let* l := unmarshal_time (sub d 10 4) in
  let* v := unmarshal_vreg cm (sub d 14 15) in
  let* c := unmarshal_bcd_string (sub d 29 2) in
  Ok (mkCV2 d (be (sub d 0 3)) (be (sub d 3 3)) f l (Some v) (Some c)
        (trim_right_bytes vin_cut (sub d 31 17))).

(** internal/dd/card_vehicle_record_g2.go:92-158. *)
Definition append_card_vehicle_g2 (r : card_vehicle_g2) : res bytes :=
  let* c := raw_canvas_nonempty 48 (cv2_raw r) in
  let c := copy_into c 0 3 (append_odometer (cv2_odo_begin r)) in
  let c := copy_into c 3 6 (append_odometer (cv2_odo_end r)) in
  let* f := append_time (cv2_first_use r) in
  let c := copy_into c 6 10 f in
  let* l := append_time (cv2_last_use r) in
  let c := copy_into c 10 14 l in
  let* v := append_vreg (cv2_reg r) in
  let c := copy_into c 14 29 v in
  let* b := append_bcd_string (cv2_counter r) in
  let c := copy_into c 29 31 b in
  Ok (copy_into c 31 48 (pad_spaces 17 (firstn 17 (cv2_vin r)))).

(** ** PlaceRecord *)

(** An enumeration with an "unrecognized" companion field: on failure the number
    1 and the byte itself. *)
Definition unmarshal_enum_or_unrecognized (T : enum_table) (b : Z) : Z * option Z :=
  match unmarshal_enum T b with
  | Ok v => (v, None)
  | _ => (ENUM_UNRECOGNIZED, Some b)
  end.

(** The companion writer, which ignores the error of MarshalEnum (byte 0). *)
Definition place_enum_byte (T : enum_table) (v : Z) (u : option Z) : Z :=
  if v =? ENUM_UNRECOGNIZED then u8 (odflt 0 u) else marshal_enum_or_zero T v.

Record place := mkPlace {
  pl_raw : bytes; pl_time : option timestamp;
  pl_entry : Z; pl_entry_unrecognized : option Z;
  pl_country : Z; pl_country_unrecognized : option Z;
  pl_region : bytes; pl_odometer : Z }.

(** internal/dd/place_record.go:24-76. *)
Definition unmarshal_place (d : bytes) : res place :=
  let* _ := guard (length d =? 10)%nat in
  let* t := unmarshal_time (sub d 0 4) in
  let e := unmarshal_enum_or_unrecognized entry_type_daily_work_period_table (nth 4 d 0) in
  let n := unmarshal_enum_or_unrecognized nation_numeric_table (nth 5 d 0) in
  Ok (mkPlace d t (fst e) (snd e) (fst n) (snd n) [nth 6 d 0] (be (sub d 7 3))).

(** internal/dd/place_record.go:79-129. *)
Definition append_place (r : place) : res bytes :=
  let* c := raw_canvas_nonempty 10 (pl_raw r) in
  let* t := append_time (pl_time r) in
  let c := copy_into c 0 4 t in
  let c := set_byte c 4 (place_enum_byte entry_type_daily_work_period_table
                           (pl_entry r) (pl_entry_unrecognized r)) in
  let c := set_byte c 5 (place_enum_byte nation_numeric_table
                           (pl_country r) (pl_country_unrecognized r)) in
  let c := match pl_region r with [] => c | b :: _ => set_byte c 6 b end in
  Ok (copy_into c 7 10 (append_odometer (pl_odometer r))).

(** ** PlaceRecordG2 *)

Record place_g2 := mkPlace2 {
  pl2_raw : bytes; pl2_time : option timestamp;
  pl2_entry : Z; pl2_entry_unrecognized : option Z;
  pl2_country : Z; pl2_country_unrecognized : option Z;
  pl2_region : bytes; pl2_odometer : Z; pl2_gnss : option gnss_place }.

(** internal/dd/place_record_g2.go:24-84. *)
Definition unmarshal_place_g2 (d : bytes) : res place_g2 :=
  let* _ := guard (length d =? 21)%nat in
  let* t := unmarshal_time (sub d 0 4) in
  let e := unmarshal_enum_or_unrecognized entry_type_daily_work_period_table (nth 4 d 0) in
  let n := unmarshal_enum_or_unrecognized nation_numeric_table (nth 5 d 0) in
  let* g := unmarshal_gnss_place (sub d 10 11) in
  Ok (mkPlace2 d t (fst e) (snd e) (fst n) (snd n) [nth 6 d 0] (be (sub d 7 3)) (Some g)).

(** internal/dd/place_record_g2.go:87-144. *)
Definition append_place_g2 (r : place_g2) : res bytes :=
  let* c := raw_canvas_nonempty 21 (pl2_raw r) in
  let* t := append_time (pl2_time r) in
  let c := copy_into c 0 4 t in
  let c := set_byte c 4 (place_enum_byte entry_type_daily_work_period_table
                           (pl2_entry r) (pl2_entry_unrecognized r)) in
  let c := set_byte c 5 (place_enum_byte nation_numeric_table
                           (pl2_country r) (pl2_country_unrecognized r)) in
  let c := match pl2_region r with [] => c | b :: _ => set_byte c 6 b end in
  let c := copy_into c 7 10 (append_odometer (pl2_odometer r)) in
  let* g := append_gnss_place (pl2_gnss r) in
  Ok (copy_into c 10 21 g).
