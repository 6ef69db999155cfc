(** RawCardFile messages and the elementary file enumeration. *)

From Verif Require Import Base.

(** elementary_file_type.proto: ElementaryFileType. *)
Definition ELEMENTARY_FILE_UNSPECIFIED : Z := 0.
Definition EF_ICC : Z := 1.
Definition EF_IC : Z := 2.
Definition EF_ATR_INFO : Z := 4.
Definition EF_EXTENDED_LENGTH : Z := 5.
Definition EF_APPLICATION_IDENTIFICATION : Z := 6.
Definition EF_EVENTS_DATA : Z := 7.
Definition EF_FAULTS_DATA : Z := 8.
Definition EF_DRIVER_ACTIVITY_DATA : Z := 9.
Definition EF_VEHICLES_USED : Z := 10.
Definition EF_PLACES : Z := 11.
Definition EF_CURRENT_USAGE : Z := 12.
Definition EF_CONTROL_ACTIVITY_DATA : Z := 13.
Definition EF_CARD_DOWNLOAD_WORKSHOP : Z := 14.
Definition EF_CALIBRATION : Z := 15.
Definition EF_SENSOR_INSTALLATION_DATA : Z := 16.
Definition EF_CONTROLLER_ACTIVITY_DATA : Z := 17.
Definition EF_COMPANY_ACTIVITY_DATA : Z := 18.
Definition EF_CARD_DOWNLOAD_DRIVER : Z := 19.
Definition EF_IDENTIFICATION : Z := 20.
Definition EF_DRIVING_LICENCE_INFO : Z := 21.
Definition EF_SPECIFIC_CONDITIONS : Z := 22.
Definition EF_VEHICLE_UNITS_USED : Z := 23.
Definition EF_GNSS_PLACES : Z := 24.
Definition EF_APPLICATION_IDENTIFICATION_V2 : Z := 25.
Definition EF_PLACES_AUTHENTICATION : Z := 26.
Definition EF_GNSS_PLACES_AUTHENTICATION : Z := 27.
Definition EF_BORDER_CROSSINGS : Z := 28.
Definition EF_LOAD_UNLOAD_OPERATIONS : Z := 29.
Definition EF_LOAD_TYPE_ENTRIES : Z := 30.
Definition EF_CALIBRATION_ADD_DATA : Z := 31.
Definition EF_VU_CONFIGURATION : Z := 32.
Definition EF_DIR : Z := 33.
Definition EF_CARD_CERTIFICATE : Z := 34.
Definition EF_CARD_MA_CERTIFICATE : Z := 35.
Definition EF_CARD_SIGN_CERTIFICATE : Z := 36.
Definition EF_CA_CERTIFICATE : Z := 37.
Definition EF_LINK_CERTIFICATE : Z := 38.
Definition EF_EGF : Z := 39.
Definition EF_VU : Z := 40.

(** The values in declaration order with their file_id option (0 if absent:
    proto.GetExtension returns the default). *)
Definition file_ids : list (Z * Z) :=
  [(0, 0); (1, 0x0002); (2, 0x0005); (4, 0x2F01); (5, 0x0006); (6, 0x0501); (7, 0x0502); (8,
   0x0503); (9, 0x0504); (10, 0x0505); (11, 0x0506); (12, 0x0507); (13, 0x0508); (14,
   0x0509); (15, 0x050A); (16, 0x050B); (17, 0x050C); (18, 0x050D); (19, 0x050E); (20,
   0x0520); (21, 0x0521); (22, 0x0522); (23, 0x0523); (24, 0x0524); (25, 0x0525); (26,
   0x0526); (27, 0x0527); (28, 0x0528); (29, 0x0529); (30, 0x0530); (31, 0x0531); (32,
   0x0540); (33, 0x2f00); (34, 0xC100); (35, 0xC100); (36, 0xC101); (37, 0xC108); (38,
   0xC109); (39, 0x2F2F); (40, 0x2F30)].

(** internal/card/infer.go:27-40 mapFidToElementaryFileType (first result; the
    only caller ignores the second). *)
Definition map_fid (fid : Z) : Z :=
  match find (fun p => u16 (snd p) =? fid) file_ids with
  | Some (n, _) => n
  | None => ELEMENTARY_FILE_UNSPECIFIED
  end.

(** content_type.proto *)
Definition CONTENT_DATA : Z := 1.
Definition CONTENT_SIGNATURE : Z := 2.

(** dd/v1/generation.proto *)
Definition GENERATION_1 : Z := 1.
Definition GENERATION_2 : Z := 2.

(** raw_card_file.proto: RawCardFile.Record (the field authentication is never
    set by the parser and never written). *)
Record raw_record := mkRR {
  rr_tag : Z; rr_file : Z; rr_generation : Z; rr_content : Z; rr_length : Z; rr_value : bytes }.
