(** Card type inference: internal/card/infer.go and the file tables it reads by
    reflection from the protobuf schema (elementary_file_type.proto,
    card_type.proto). *)

From Verif Require Import Base RawTypes.

(** card_type.proto: CardType. *)
Definition CARD_TYPE_UNSPECIFIED : Z := 0.
Definition DRIVER_CARD : Z := 1.
Definition WORKSHOP_CARD : Z := 2.
Definition CONTROL_CARD : Z := 3.
Definition COMPANY_CARD : Z := 4.
Definition GNSS_SIMULATED_CARD : Z := 5.

(** file_descriptor.proto: FileDescriptor with fields type, ef, files ([df] and
    [conditional] are never read by the code). *)
Inductive file_desc := FD (type ef : Z) (files : list file_desc).

(** file_type.proto *)
Definition MF : Z := 1.
Definition DF : Z := 2.
Definition EF : Z := 3.

Definition EFD (ef : Z) : file_desc := FD EF ef [].

(** card_type.proto, DRIVER_CARD. *)
Definition driver_card_files : file_desc :=
  FD MF 0 [
    EFD EF_ICC;
    EFD EF_IC;
    EFD EF_DIR;
    EFD EF_ATR_INFO;
    EFD EF_EXTENDED_LENGTH;
    FD DF 0 [
      EFD EF_APPLICATION_IDENTIFICATION;
      EFD EF_CARD_CERTIFICATE;
      EFD EF_CA_CERTIFICATE;
      EFD EF_IDENTIFICATION;
      EFD EF_CARD_DOWNLOAD_DRIVER;
      EFD EF_DRIVING_LICENCE_INFO;
      EFD EF_EVENTS_DATA;
      EFD EF_FAULTS_DATA;
      EFD EF_DRIVER_ACTIVITY_DATA;
      EFD EF_VEHICLES_USED;
      EFD EF_PLACES;
      EFD EF_CURRENT_USAGE;
      EFD EF_CONTROL_ACTIVITY_DATA;
      EFD EF_SPECIFIC_CONDITIONS];
    FD DF 0 [
      EFD EF_APPLICATION_IDENTIFICATION;
      EFD EF_CARD_CERTIFICATE;
      EFD EF_CARD_SIGN_CERTIFICATE;
      EFD EF_CA_CERTIFICATE;
      EFD EF_LINK_CERTIFICATE;
      EFD EF_IDENTIFICATION;
      EFD EF_CARD_DOWNLOAD_DRIVER;
      EFD EF_DRIVING_LICENCE_INFO;
      EFD EF_EVENTS_DATA;
      EFD EF_FAULTS_DATA;
      EFD EF_DRIVER_ACTIVITY_DATA;
      EFD EF_VEHICLES_USED;
      EFD EF_PLACES;
      EFD EF_CURRENT_USAGE;
      EFD EF_CONTROL_ACTIVITY_DATA;
      EFD EF_SPECIFIC_CONDITIONS;
      EFD EF_VEHICLE_UNITS_USED;
      EFD EF_COMPANY_ACTIVITY_DATA;
      EFD EF_GNSS_PLACES;
      EFD EF_APPLICATION_IDENTIFICATION_V2;
      EFD EF_PLACES_AUTHENTICATION;
      EFD EF_GNSS_PLACES_AUTHENTICATION;
      EFD EF_BORDER_CROSSINGS;
      EFD EF_LOAD_UNLOAD_OPERATIONS;
      EFD EF_LOAD_TYPE_ENTRIES;
      EFD EF_VU_CONFIGURATION]].

(** card_type.proto, WORKSHOP_CARD. *)
Definition workshop_card_files : file_desc :=
  FD MF 0 [
    EFD EF_ICC;
    EFD EF_IC;
    EFD EF_DIR;
    EFD EF_ATR_INFO;
    EFD EF_EXTENDED_LENGTH;
    FD DF 0 [
      EFD EF_APPLICATION_IDENTIFICATION;
      EFD EF_CARD_CERTIFICATE;
      EFD EF_CA_CERTIFICATE;
      EFD EF_IDENTIFICATION;
      EFD EF_CARD_DOWNLOAD_WORKSHOP;
      EFD EF_CALIBRATION;
      EFD EF_SENSOR_INSTALLATION_DATA;
      EFD EF_EVENTS_DATA;
      EFD EF_FAULTS_DATA;
      EFD EF_DRIVER_ACTIVITY_DATA;
      EFD EF_VEHICLES_USED;
      EFD EF_PLACES;
      EFD EF_CURRENT_USAGE;
      EFD EF_CONTROL_ACTIVITY_DATA;
      EFD EF_SPECIFIC_CONDITIONS];
    FD DF 0 [
      EFD EF_APPLICATION_IDENTIFICATION;
      EFD EF_CARD_CERTIFICATE;
      EFD EF_CARD_SIGN_CERTIFICATE;
      EFD EF_CA_CERTIFICATE;
      EFD EF_LINK_CERTIFICATE;
      EFD EF_IDENTIFICATION;
      EFD EF_CARD_DOWNLOAD_WORKSHOP;
      EFD EF_CALIBRATION;
      EFD EF_SENSOR_INSTALLATION_DATA;
      EFD EF_EVENTS_DATA;
      EFD EF_FAULTS_DATA;
      EFD EF_DRIVER_ACTIVITY_DATA;
      EFD EF_VEHICLES_USED;
      EFD EF_PLACES;
      EFD EF_CURRENT_USAGE;
      EFD EF_CONTROL_ACTIVITY_DATA;
      EFD EF_SPECIFIC_CONDITIONS;
      EFD EF_VEHICLE_UNITS_USED;
      EFD EF_COMPANY_ACTIVITY_DATA;
      EFD EF_GNSS_PLACES;
      EFD EF_APPLICATION_IDENTIFICATION_V2;
      EFD EF_PLACES_AUTHENTICATION;
      EFD EF_GNSS_PLACES_AUTHENTICATION;
      EFD EF_BORDER_CROSSINGS;
      EFD EF_LOAD_UNLOAD_OPERATIONS;
      EFD EF_LOAD_TYPE_ENTRIES;
      EFD EF_CALIBRATION_ADD_DATA;
      EFD EF_VU_CONFIGURATION]].

(** card_type.proto, CONTROL_CARD. *)
Definition control_card_files : file_desc :=
  FD MF 0 [
    EFD EF_ICC;
    EFD EF_IC;
    EFD EF_DIR;
    EFD EF_ATR_INFO;
    EFD EF_EXTENDED_LENGTH;
    FD DF 0 [
      EFD EF_APPLICATION_IDENTIFICATION;
      EFD EF_CARD_CERTIFICATE;
      EFD EF_CA_CERTIFICATE;
      EFD EF_IDENTIFICATION;
      EFD EF_CONTROLLER_ACTIVITY_DATA];
    FD DF 0 [
      EFD EF_APPLICATION_IDENTIFICATION;
      EFD EF_CARD_CERTIFICATE;
      EFD EF_CARD_SIGN_CERTIFICATE;
      EFD EF_CA_CERTIFICATE;
      EFD EF_LINK_CERTIFICATE;
      EFD EF_IDENTIFICATION;
      EFD EF_CONTROLLER_ACTIVITY_DATA;
      EFD EF_APPLICATION_IDENTIFICATION_V2;
      EFD EF_VU_CONFIGURATION]].

(** card_type.proto, COMPANY_CARD. *)
Definition company_card_files : file_desc :=
  FD MF 0 [
    EFD EF_ICC;
    EFD EF_IC;
    EFD EF_DIR;
    EFD EF_ATR_INFO;
    EFD EF_EXTENDED_LENGTH;
    FD DF 0 [
      EFD EF_APPLICATION_IDENTIFICATION;
      EFD EF_CARD_CERTIFICATE;
      EFD EF_CA_CERTIFICATE;
      EFD EF_IDENTIFICATION;
      EFD EF_COMPANY_ACTIVITY_DATA];
    FD DF 0 [
      EFD EF_APPLICATION_IDENTIFICATION;
      EFD EF_CARD_CERTIFICATE;
      EFD EF_CARD_SIGN_CERTIFICATE;
      EFD EF_CA_CERTIFICATE;
      EFD EF_LINK_CERTIFICATE;
      EFD EF_IDENTIFICATION;
      EFD EF_COMPANY_ACTIVITY_DATA;
      EFD EF_APPLICATION_IDENTIFICATION_V2;
      EFD EF_VU_CONFIGURATION]].

(** card_type.proto, GNSS_SIMULATED_CARD. *)
Definition gnss_simulated_card_files : file_desc :=
  FD MF 0 [
    EFD EF_ICC;
    FD DF 0 [
      EFD EF_CARD_CERTIFICATE;
      EFD EF_CA_CERTIFICATE;
      EFD EF_LINK_CERTIFICATE;
      EFD EF_EGF;
      EFD EF_VU]].

(** The enumeration values of CardType in declaration order with their
    file_structure option; the first has none, so the extension getter gives a
    nil descriptor whose getters return zero values. *)
Definition card_types : list (Z * file_desc) :=
  [(CARD_TYPE_UNSPECIFIED, FD 0 0 []);
   (DRIVER_CARD, driver_card_files);
   (WORKSHOP_CARD, workshop_card_files);
   (CONTROL_CARD, control_card_files);
   (COMPANY_CARD, company_card_files);
   (GNSS_SIMULATED_CARD, gnss_simulated_card_files)].

(** infer.go:66-75 getAllElementaryFiles *)
Fixpoint all_elementary_files (d : file_desc) : list Z :=
  match d with
  | FD t ef fs => (if t =? EF then [ef] else []) ++ flat_map all_elementary_files fs
  end.

(** infer.go:43-63 hasAllElementaryFiles *)
Definition has_all_elementary_files (d : file_desc) (rs : list raw_record) : bool :=
  forallb (fun r => negb (rr_content r =? CONTENT_DATA) ||
                    existsb (Z.eqb (rr_file r)) (all_elementary_files d)) rs.

(** infer.go:9-23 InferFileType *)
Definition infer_file_type (rs : list raw_record) : Z :=
  match find (fun td => has_all_elementary_files (snd td) rs) card_types with
  | Some (t, _) => t
  | None => CARD_TYPE_UNSPECIFIED
  end.
