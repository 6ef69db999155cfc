(** Writing messages whose repeated fields may hold nil elements.

    A message read by the library has none.  A message put together by a program can:
    a repeated field is a Go slice of pointers.  The getters of a nil message give
    the values of an empty message, so a function that only uses getters treats nil
    as an empty message; [odflt] with the empty message stands for that.  Where the
    code compares with nil first, the definitions below do so too. *)

From Verif Require Import Base Enums Chunks DDScalar DDString DDRecord RawTypes RawCard Infer.
From Verif Require Import CardBasic CardRecords CardIdent CardActivity Cert DriverCard Vu Api.

(** ** Elements *)

Definition empty_event : event := mkEv false [] 0 None None None.
Definition empty_place : place := mkPlace [] None 0 None 0 None [] 0.
Definition empty_place_g2 : place_g2 := mkPlace2 [] None 0 None 0 None [] 0 None.
Definition empty_change : activity_change := mkAC None 0 false false 0 0.
Definition empty_vehicle : card_vehicle := mkCV [] 0 0 None None None None.
Definition empty_vehicle_g2 : card_vehicle_g2 := mkCV2 [] 0 0 None None None None [].
Definition empty_raw_record : raw_record := mkRR 0 0 0 0 0 [].

(** events.go:196-221, faults.go:196-221: getters only *)
Definition append_event_n (o : option event) : res bytes := append_event (odflt empty_event o).

(** internal/dd/place_record.go:79-129, place_record_g2.go:87-144: getters only *)
Definition append_place_n (o : option place) : res bytes := append_place (odflt empty_place o).
Definition append_place_g2_n (o : option place_g2) : res bytes := append_place_g2 (odflt empty_place_g2 o).

(** internal/dd/card_vehicle_record.go:85-141, card_vehicle_record_g2.go:92-158: getters only *)
Definition append_card_vehicle_n (o : option card_vehicle) : res bytes := append_card_vehicle (odflt empty_vehicle o).
Definition append_card_vehicle_g2_n (o : option card_vehicle_g2) : res bytes :=
  append_card_vehicle_g2 (odflt empty_vehicle_g2 o).

(** internal/dd/specific_condition_record.go:60-91: nil is an error (lines 61-63) *)
Definition append_spec_cond_n (o : option spec_cond) : res bytes :=
  match o with None => fail | Some r => append_spec_cond r end.

(** internal/card/gnss_places.go:201-227: nil appends nothing (lines 202-204) *)
Definition append_gnss_record_n (o : option gnss_record) : res bytes :=
  match o with None => Ok [] | Some r => append_gnss_record r end.

(** internal/card/vehicle_units_used.go:202-247: nil appends nothing (lines 203-205) *)
Definition append_unit_record_n (o : option unit_record) : res bytes :=
  match o with None => Ok [] | Some r => append_unit_record r end.

(** DriverActivityData.DailyRecord again, with nil among its changes. *)
Record day_n := mkDayN {
  dn_valid : bool; dn_raw : bytes; dn_prev : Z; dn_len : Z; dn_date : option timestamp;
  dn_counter : option bcd_string; dn_distance : Z; dn_changes : list (option activity_change) }.

Definition empty_day : day_n := mkDayN false [] 0 0 None None 0 [].

(** What the getters used in activity.go:443-503 show of a daily record;
    AppendActivityChangeInfo (internal/dd/activity_change_info.go:105-143) only uses
    getters, and [len] counts nil elements. *)
Definition shown_day (o : option day_n) : day :=
  let r := odflt empty_day o in
  mkDay (dn_valid r) (dn_raw r) (dn_prev r) (dn_len r) (dn_date r) (dn_counter r) (dn_distance r)
    (map (odflt empty_change) (dn_changes r)).

(** ** Files *)

Record activity_n := mkActN { actn_oldest : Z; actn_newest : Z; actn_raw : bytes; actn_days : list (option day_n) }.
Record places_n := mkPlacesN { psn_raw : bytes; psn_newest : Z; psn_records : list (option place) }.
Record places_g2_n := mkPlaces2N { ps2n_raw : bytes; ps2n_newest : Z; ps2n_records : list (option place_g2) }.
Record vehicles_n := mkVehN { vsn_raw : bytes; vsn_newest : Z; vsn_records : list (option card_vehicle) }.
Record vehicles_g2_n := mkVeh2N { vs2n_raw : bytes; vs2n_newest : Z; vs2n_records : list (option card_vehicle_g2) }.
Record gnss_places_n := mkGPsN { gpsn_newest : Z; gpsn_records : list (option gnss_record) }.
Record units_used_n := mkUUN { uun_newest : Z; uun_records : list (option unit_record) }.
Record conditions_n := mkCondN { con_raw : bytes; con_records : list (option spec_cond) }.
Record conditions_g2_n := mkCond2N { co2n_raw : bytes; co2n_newest : Z; co2n_records : list (option spec_cond) }.

(** internal/card/activity.go:229-252, 374-438 *)
Definition append_activity_n (a : activity_n) : res bytes :=
  let* buf := if (0 <? length (actn_raw a))%nat then Ok (actn_raw a) else build_ring (map shown_day (actn_days a)) in
  Ok (to_be 2 (actn_oldest a) ++ to_be 2 (actn_newest a) ++ buf).

(** internal/card/places.go:80-129 *)
Definition append_places_n (p : places_n) : res bytes :=
  append_pointer_file append_place_n 10 [u8 (psn_newest p)] (psn_raw p) (psn_records p).

(** internal/card/places_g2.go:81-130 *)
Definition append_places_g2_n (p : places_g2_n) : res bytes :=
  append_pointer_file append_place_g2_n 21 (to_be 2 (u16 (ps2n_newest p))) (ps2n_raw p) (ps2n_records p).

(** internal/card/vehicles_used.go:77-126 *)
Definition append_vehicles_n (x : vehicles_n) : res bytes :=
  append_pointer_file append_card_vehicle_n 31 (to_be 2 (u16 (vsn_newest x))) (vsn_raw x) (vsn_records x).

(** internal/card/vehicles_used_g2.go:77-126 *)
Definition append_vehicles_g2_n (x : vehicles_g2_n) : res bytes :=
  append_pointer_file append_card_vehicle_g2_n 48 (to_be 2 (u16 (vs2n_newest x))) (vs2n_raw x) (vs2n_records x).

(** internal/card/gnss_places.go:172-193 *)
Definition append_gnss_places_n (x : gnss_places_n) : res bytes :=
  let* b := concat_res append_gnss_record_n (gpsn_records x) in
  Ok (to_be 2 (u16 (gpsn_newest x)) ++ b).

(** internal/card/vehicle_units_used.go:172-193 *)
Definition append_units_used_n (x : units_used_n) : res bytes :=
  let* b := concat_res append_unit_record_n (uun_records x) in
  Ok (to_be 2 (u16 (uun_newest x)) ++ b).

(** internal/card/specific_conditions.go:64-107 *)
Definition append_conditions_n (x : conditions_n) : res bytes :=
  append_pointer_file append_spec_cond_n 5 [] (con_raw x) (con_records x).

(** internal/card/specific_conditions_g2.go:93-110; see [paint_fit]. *)
Fixpoint paint_fit_n (c : bytes) (off : nat) (l : list (option spec_cond)) : res (option bytes) :=
  match l with
  | [] => Ok (Some c)
  | r :: t =>
      if (length c <? off + 5)%nat then Ok None
      else
        let* b := append_spec_cond_n r in
        let* _ := guard (length b =? 5)%nat in
        paint_fit_n (copy_into c off (off + 5) b) (off + 5) t
  end.

(** internal/card/specific_conditions_g2.go:70-126.  The canvas is as long as the raw
    bytes, so [canvas[0:2]] on line 87 is out of range if there is one of them. *)
Definition append_conditions_g2_n (x : conditions_g2_n) : res bytes :=
  let pointer := to_be 2 (u16 (co2n_newest x)) in
  let* painted :=
    (if (0 <? length (co2n_raw x))%nat then
       let* _ := slice (co2n_raw x) 0 2 in
       paint_fit_n (copy_into (co2n_raw x) 0 2 pointer) 2 (co2n_records x)
     else Ok None) in
  match painted with
  | Some c => Ok c
  | None => let* b := concat_res append_spec_cond_n (co2n_records x) in Ok (pointer ++ b)
  end.

(** ** Driver cards *)

(** [content] (DriverCard) with nil elements. *)
Definition content_n (s : slot) : Type :=
  match s with
  | S_events | S2_events | S_faults | S2_faults => list (option event)
  | S_activity | S2_activity => activity_n
  | S_vehicles => vehicles_n
  | S2_vehicles => vehicles_g2_n
  | S_places => places_n
  | S2_places => places_g2_n
  | S_conditions => conditions_n
  | S2_conditions => conditions_g2_n
  | S2_units => units_used_n
  | S2_gnss => gnss_places_n
  | S_icc => icc
  | S_ic => ic
  | S_app_id => app_id
  | S2_app_id => app_id_g2
  | S_licence | S2_licence => driving_licence
  | S_identification | S2_identification => identification
  | S_usage | S2_usage => current_usage
  | S_control | S2_control => control_activity
  | S_download | S2_download => option timestamp
  | S2_app_v2 => app_id_v2
  | S_card_cert | S_ca_cert => rsa_cert
  | S2_ma_cert | S2_sign_cert | S2_ca_cert | S2_link_cert => ecc_cert
  end.

(** The append functions called in driver_card_file.go:625-827 *)
Definition append_content_n (s : slot) : content_n s -> res bytes :=
  match s return content_n s -> res bytes with
  | S_events | S2_events | S_faults | S2_faults => concat_res append_event_n
  | S_activity | S2_activity => append_activity_n
  | S_vehicles => append_vehicles_n
  | S2_vehicles => append_vehicles_g2_n
  | S_places => append_places_n
  | S2_places => append_places_g2_n
  | S_conditions => append_conditions_n
  | S2_conditions => append_conditions_g2_n
  | S2_units => append_units_used_n
  | S2_gnss => append_gnss_places_n
  | S_icc => append_content S_icc
  | S_ic => append_content S_ic
  | S_app_id => append_content S_app_id
  | S2_app_id => append_content S2_app_id
  | S_licence | S2_licence => append_content S_licence
  | S_identification | S2_identification => append_content S_identification
  | S_usage | S2_usage => append_content S_usage
  | S_control | S2_control => append_content S_control
  | S_download | S2_download => append_content S_download
  | S2_app_v2 => append_content S2_app_v2
  | S_card_cert | S_ca_cert => append_content S_card_cert
  | S2_ma_cert | S2_sign_cert | S2_ca_cert | S2_link_cert => append_content S2_ma_cert
  end.

Record driver_card_n := mkDCN { dcn_has : app -> bool; dcn_slot : forall s, option (content_n s * option bytes) }.

Definition slot_of_card_n (c : driver_card_n) (s : slot) : option (content_n s * option bytes) :=
  if dcn_has c (slot_app s) then dcn_slot c s else None.

(** driver_card_file.go:880-1014, 841-877 *)
Definition write_slot_n (c : driver_card_n) (p : slot * style) : res bytes :=
  match slot_of_card_n c (fst p) with
  | None => Ok []
  | Some (v, _) =>
      let* b := append_content_n (fst p) v in
      Ok (write_tlv (snd p) (slot_file (fst p)) b)
  end.

(** driver_card_file.go:24-34, 625-827 *)
Definition marshal_driver_card_n (o : option driver_card_n) : res bytes :=
  match o with
  | None => fail
  | Some c => concat_res (write_slot_n c) marshal_order
  end.

(** ** Files *)

Record file_n := mkFileN {
  fn_type : Z; fn_vu : option vu_file; fn_driver_card : option driver_card_n;
  fn_raw_card : option (list (option raw_record)) }.

(** marshal.go:12-23; MarshalRawCardFile (internal/card/rawcardfile.go:32-44) only
    uses getters.  MarshalVehicleUnitFile fails for every message, with or without
    nil elements, so [fn_vu] has none. *)
Definition marshal_file_n (o : option file_n) : res bytes :=
  match o with
  | None => fail
  | Some f =>
      if fn_type f =? FILE_DRIVER_CARD then marshal_driver_card_n (fn_driver_card f)
      else if fn_type f =? FILE_VEHICLE_UNIT then marshal_vu (fn_vu f)
      else if fn_type f =? FILE_RAW_CARD then
        Ok (flat_map (fun r => append_raw_record (odflt empty_raw_record r)) (match fn_raw_card f with Some rs => rs | None => [] end))
      else fail
  end.
