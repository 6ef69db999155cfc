(** The model against the recorded outputs of the program.

    The tests of internal/card read a base64 file, require that writing the parsed
    message gives the same bytes, and compare its JSON (after anonymisation) with a
    golden file.  Here the model runs on the same files.  These are checks of the
    model on fixed data, not properties of it. *)

From Coq Require Import String.
From Verif Require Import Base Enums DDScalar Chunks Utf8 DDString DDRecord Scanner CardBasic CardIdent
  CardRecords CardActivity Anonymize Conf_Json Conf_Golden.
Local Open Scope string_scope.
Local Open Scope list_scope.

(** Code pages 0 and 1 only occur in the recorded data. *)
Definition latin1_only : Z -> Z -> Z := fun _ _ => 0.

(** ** Rendering, in the order of the field numbers *)

Definition r_string (s : string_value) : json :=
  JO (enum "encoding" names_encoding (sv_encoding s) ++ opt (num "length") (sv_length s) ++
      str "value" (sv_value s) ++ opt (raw "rawData") (sv_raw s)).

Definition r_ia5 (s : ia5) : json :=
  JO (opt (num "length") (ia5_length s) ++ str "value" (ia5_value s) ++ opt (raw "rawData") (ia5_raw s)).

Definition r_vreg (v : vreg) : json :=
  JO (enum "nation" names_nation_numeric (vr_nation v) ++ msg "number" r_string (vr_number v)).

Definition r_bcd (b : bcd_string) : json := JO (num "value" (bcd_value b) ++ num "length" (bcd_length b)).

Definition r_month_year (m : month_year) : json :=
  JO (raw "rawData" (my_raw m) ++ num "month" (my_month m) ++ num "year" (my_year m)).

Definition r_ext_serial (e : ext_serial) : json :=
  JO ([("serialNumber", JS (text (map (fun d => 48 + d) (itoa (es_serial e)))))] ++
      msg "monthYear" r_month_year (es_month_year e) ++
      enum "type" names_equipment_type (es_type e) ++ num "manufacturerCode" (es_manufacturer e)).

Definition r_ic (x : ic) : json :=
  JO (raw "icSerialNumber" (ic_serial x) ++ raw "icManufacturingReferences" (ic_references x)).

Definition r_embedder (e : embedder) : json :=
  JO (msg "countryCode" r_ia5 (em_country e) ++ msg "moduleEmbedder" r_ia5 (em_module e) ++
      num "manufacturerInformation" (em_manufacturer e)).

Definition r_icc (x : icc) : json :=
  JO (enum "clockStop" names_clock_stop_mode (icc_clock_stop x) ++
      msg "cardExtendedSerialNumber" r_ext_serial (icc_serial x) ++
      msg "cardApprovalNumber" r_ia5 (icc_approval x) ++
      num "cardPersonaliserId" (icc_personaliser x) ++
      msg "embedderIcAssemblerId" r_embedder (icc_embedder x) ++
      raw "icIdentifier" (icc_ic_identifier x)).

Definition r_csv (v : csv) : json :=
  JO (opt (raw "rawData") (csv_raw v) ++ num "major" (csv_major v) ++ num "minor" (csv_minor v)).

Definition r_app_driver (a : app_driver) : json :=
  JO (opt (num "eventsPerTypeCount") (ad_events a) ++ opt (num "faultsPerTypeCount") (ad_faults a) ++
      opt (num "activityStructureLength") (ad_activity_length a) ++
      opt (num "cardVehicleRecordsCount") (ad_vehicles a) ++
      opt (num "cardPlaceRecordsCount") (ad_places a)).

Definition r_app_id (x : app_id) : json :=
  JO (enum "cardType" names_card_type (ai_card_type x) ++
      opt (enum "typeOfTachographCardId" names_equipment_type) (ai_type x) ++
      msg "cardStructureVersion" r_csv (ai_version x) ++ msg "driver" r_app_driver (ai_driver x)).

Definition r_licence (x : driving_licence) : json :=
  JO (msg "drivingLicenceIssuingAuthority" r_string (dl_authority x) ++
      enum "drivingLicenceIssuingNation" names_nation_numeric (dl_nation x) ++
      msg "drivingLicenceNumber" r_ia5 (dl_number x)).

Definition r_usage (x : current_usage) : json :=
  JO (time "sessionOpenTime" (cu_time x) ++ msg "sessionOpenVehicle" r_vreg (cu_vehicle x)).

(** Only the fields of a record without control; the recorded one has none. *)
Definition r_control (x : control_activity) : json :=
  JO (flag "valid" (ca_valid x) ++ ne_raw "rawData" (ca_raw x)).

Definition r_date (d : date) : json :=
  JO (opt (raw "rawData") (date_raw d) ++ num "year" (date_year d) ++ num "month" (date_month d) ++
      num "day" (date_day d)).

Definition r_driver_number (d : driver_number) : json :=
  JO (msg "driverIdentificationNumber" r_ia5 (dn_number d) ++
      msg "cardReplacementIndex" r_ia5 (dn_replacement d) ++
      msg "cardRenewalIndex" r_ia5 (dn_renewal d)).

Definition r_card_part (c : ident_card) : json :=
  JO (enum "cardIssuingMemberState" names_nation_numeric (id_nation c) ++
      match id_number c with
      | CN_driver d => [("driverIdentification", r_driver_number d)]
      | _ => []
      end ++
      msg "cardIssuingAuthorityName" r_string (id_authority c) ++
      time "cardIssueDate" (id_issue c) ++ time "cardValidityBegin" (id_begin c) ++
      time "cardExpiryDate" (id_expiry c)).

Definition r_holder (h : ident_holder) : json :=
  JO (msg "cardHolderSurname" r_string (ih_surname h) ++
      msg "cardHolderFirstNames" r_string (ih_first_names h) ++
      msg "cardHolderBirthDate" r_date (ih_birth h) ++
      msg "cardHolderPreferredLanguage" r_ia5 (ih_language h)).

Definition r_identification (x : identification) : json :=
  JO (msg "card" r_card_part (ident_card_part x) ++
      enum "cardType" names_card_type (ident_type x) ++
      msg "driverCardHolder" r_holder (ident_holder_part x)).

Definition r_event (e : event) : json :=
  JO (flag "valid" (ev_valid e) ++
      (if ev_valid e then enum "eventType" names_event_fault_type (ev_type e) else []) ++
      time "eventBeginTime" (ev_begin e) ++ time "eventEndTime" (ev_end e) ++
      msg "eventVehicleRegistration" r_vreg (ev_vehicle e) ++ ne_raw "rawData" (ev_raw e)).

Definition r_geo (g : geo) : json :=
  JO (num "latitude" (geo_latitude g) ++ num "longitude" (geo_longitude g)).

Definition r_gnss_place (g : gnss_place) : json :=
  JO (time "timestamp" (gp_time g) ++ num "gnssAccuracy" (gp_accuracy g) ++
      msg "geoCoordinates" r_geo (gp_geo g)).

Definition r_gnss_record (r : gnss_record) : json :=
  JO (time "timestamp" (gr_time r) ++ msg "gnssPlaceRecord" r_gnss_place (gr_place r) ++
      num "vehicleOdometerKm" (gr_odometer r)).

Definition r_gnss_places (x : gnss_places) : json :=
  JO (num "newestRecordIndex" (gps_newest x) ++ many "records" r_gnss_record (gps_records x)).

Definition r_place (p : place) : json :=
  JO (time "entryTime" (pl_time p) ++
      enum "entryTypeDailyWorkPeriod" names_entry_type_daily_work_period (pl_entry p) ++
      enum "dailyWorkPeriodCountry" names_nation_numeric (pl_country p) ++
      raw "dailyWorkPeriodRegion" (pl_region p) ++ num "vehicleOdometerKm" (pl_odometer p) ++
      ne_raw "rawData" (pl_raw p)).

Definition r_places (x : places) : json :=
  JO (num "newestRecordIndex" (ps_newest x) ++ many "records" r_place (ps_records x) ++
      ne_raw "rawData" (ps_raw x)).

Definition r_place_g2 (p : place_g2) : json :=
  JO (time "entryTime" (pl2_time p) ++
      enum "entryTypeDailyWorkPeriod" names_entry_type_daily_work_period (pl2_entry p) ++
      enum "dailyWorkPeriodCountry" names_nation_numeric (pl2_country p) ++
      raw "dailyWorkPeriodRegion" (pl2_region p) ++ num "vehicleOdometerKm" (pl2_odometer p) ++
      msg "entryGnssPlaceRecord" r_gnss_place (pl2_gnss p) ++ ne_raw "rawData" (pl2_raw p)).

Definition r_places_g2 (x : places_g2) : json :=
  JO (num "newestRecordIndex" (ps2_newest x) ++ many "records" r_place_g2 (ps2_records x) ++
      ne_raw "rawData" (ps2_raw x)).

Definition r_condition (c : spec_cond) : json :=
  JO (time "entryTime" (sc_time c) ++
      enum "specificConditionType" names_specific_condition_type (sc_type c)).

Definition r_conditions (x : conditions) : json := JO (many "records" r_condition (co_records x)).

Definition r_unit (u : unit_record) : json :=
  JO (time "timestamp" (ur_time u) ++ num "manufacturerCode" (ur_manufacturer u) ++
      raw "deviceId" (ur_device u) ++ raw "vuSoftwareVersion" (ur_version u)).

Definition r_units (x : units_used) : json :=
  JO (num "vehicleUnitPointerNewestRecord" (uu_newest x) ++ many "records" r_unit (uu_records x)).

Definition r_vehicle (v : card_vehicle) : json :=
  JO (num "vehicleOdometerBeginKm" (cv_odo_begin v) ++ num "vehicleOdometerEndKm" (cv_odo_end v) ++
      time "vehicleFirstUse" (cv_first_use v) ++ time "vehicleLastUse" (cv_last_use v) ++
      msg "vehicleRegistration" r_vreg (cv_reg v) ++ msg "vuDataBlockCounter" r_bcd (cv_counter v) ++
      ne_raw "rawData" (cv_raw v)).

(** AnonymizeVehiclesUsed sets an empty signature (vehicles_used.go:159), which the
    model keeps elsewhere. *)
Definition r_vehicles (x : vehicles) : json :=
  JO (num "newestRecordIndex" (vs_newest x) ++ many "records" r_vehicle (vs_records x) ++
      ne_raw "rawData" (vs_raw x) ++ [("signature", JS "")]).

(** ** Comparison *)

(** Parsing succeeds, writing gives the file back, and the parsed message renders
    as the golden file, up to raw data. *)
Definition conforms {A} (parse : bytes -> res A) (write : option A -> res bytes) (render : A -> json)
  (data : bytes) (golden : json) : Prop :=
  exists x, parse data = Ok x /\ write (Some x) = Ok data /\ strip (render x) = strip golden.

(** The same with the anonymiser of the production code in between, raw data
    included. *)
Definition conforms_anonymized {A} (parse : bytes -> res A) (write : option A -> res bytes)
  (anonymize : A -> A) (render : A -> json) (data : bytes) (golden : json) : Prop :=
  exists x, parse data = Ok x /\ write (Some x) = Ok data /\
    write (Some (anonymize x)) = Ok data /\ render (anonymize x) = golden.


Lemma conforms_of {A} (parse : bytes -> res A) write (render : A -> json) data golden :
  match parse data with
  | Ok x => write (Some x) = Ok data /\ strip (render x) = strip golden
  | _ => False
  end -> conforms parse write render data golden.
Proof.
  unfold conforms. destruct (parse data) as [x | e | ]; [ | contradiction | contradiction].
  intros [H1 H2]. exists x. auto.
Qed.

Lemma conforms_anonymized_of {A} (parse : bytes -> res A) write an (render : A -> json) data golden :
  match parse data with
  | Ok x => write (Some x) = Ok data /\ write (Some (an x)) = Ok data /\ render (an x) = golden
  | _ => False
  end -> conforms_anonymized parse write an render data golden.
Proof.
  unfold conforms_anonymized. destruct (parse data) as [x | e | ]; [ | contradiction | contradiction].
  intros [H1 [H2 H3]]. exists x. auto.
Qed.

Ltac run := first [apply conforms_of | apply conforms_anonymized_of]; vm_compute; repeat split.

Example conf_ic : conforms unmarshal_ic append_ic r_ic data_ic golden_ic.
Proof. run. Qed.

Example conf_icc : conforms unmarshal_icc append_icc r_icc data_icc golden_icc.
Proof. run. Qed.

Example conf_application_identification :
  conforms unmarshal_app_id append_app_id r_app_id
    data_application_identification golden_application_identification.
Proof. run. Qed.

Example conf_driving_licence :
  conforms (unmarshal_driving_licence latin1_only) append_driving_licence r_licence
    data_driving_licence golden_driving_licence.
Proof. run. Qed.

Example conf_current_usage :
  conforms (unmarshal_current_usage latin1_only) append_current_usage r_usage
    data_current_usage golden_current_usage.
Proof. run. Qed.

Example conf_control_activity :
  conforms (unmarshal_control_activity latin1_only) append_control_activity r_control
    data_control_activity golden_control_activity.
Proof. run. Qed.

Example conf_events :
  conforms (unmarshal_events latin1_only) append_events
    (fun l => JO (many "events" r_event l)) data_events golden_events.
Proof. run. Qed.

Example conf_faults :
  conforms (unmarshal_events latin1_only) append_events
    (fun l => JO (many "faults" r_event l)) data_faults golden_faults.
Proof. run. Qed.

Example conf_gnss_places :
  conforms unmarshal_gnss_places append_gnss_places r_gnss_places data_gnss_places golden_gnss_places.
Proof. run. Qed.

Example conf_specific_conditions :
  conforms unmarshal_conditions append_conditions r_conditions
    data_specific_conditions golden_specific_conditions.
Proof. run. Qed.

Example conf_vehicle_units_used :
  conforms unmarshal_units_used append_units_used r_units
    data_vehicle_units_used golden_vehicle_units_used.
Proof. run. Qed.

Example conf_places :
  conforms_anonymized unmarshal_places append_places anonymize_places r_places data_places golden_places.
Proof. run. Qed.

Example conf_places_g2 :
  conforms_anonymized unmarshal_places_g2 append_places_g2 anonymize_places_g2 r_places_g2
    data_places_g2 golden_places_g2.
Proof. run. Qed.

Example conf_vehicles :
  conforms_anonymized (unmarshal_vehicles latin1_only) append_vehicles anonymize_vehicles r_vehicles
    data_vehicles golden_vehicles.
Proof. run. Qed.

(** TestIdentificationAnonymization (identification_test.go:96-178): parse,
    anonymise, write, parse again and render. *)
Example conf_identification :
  exists x y,
    unmarshal_identification latin1_only data_identification = Ok x /\
    append_identification (Some x) = Ok data_identification /\
    append_identification (Some (written_of (anonymize_identification (full_of x)))) =
      Ok data_identification /\
    unmarshal_identification latin1_only data_identification = Ok y /\
    r_identification y = golden_identification.
Proof.
  destruct (unmarshal_identification latin1_only data_identification) as [x | e | ] eqn:E;
    [ | exfalso; vm_compute in E; discriminate | exfalso; vm_compute in E; discriminate].
  exists x, x. vm_compute in E. injection E as <-.
  split; [reflexivity | ]. vm_compute. repeat split.
Qed.

(** TestDriverActivityDataRoundTrip (activity_test.go:21-60): a ring of 13776 bytes
    with 145 days; specific_conditions_g2.b64 is read by no test. *)
Example conf_activity :
  match unmarshal_activity data_activity with
  | Ok x => append_activity (Some x) = Ok data_activity /\ length (act_days x) = 145%nat
  | _ => False
  end.
Proof. vm_compute. split; reflexivity. Qed.

Example conf_specific_conditions_g2 :
  match unmarshal_conditions_g2 data_specific_conditions_g2 with
  | Ok x => append_conditions_g2 (Some x) = Ok data_specific_conditions_g2 /\
            length (co2_records x) = 112%nat
  | _ => False
  end.
Proof. vm_compute. split; reflexivity. Qed.
