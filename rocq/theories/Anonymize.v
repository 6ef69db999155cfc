(** The anonymisers (internal/card and internal/dd, functions Anonymize…).

    A nil message gives nil; only present messages are modelled.  Copies share
    sub-messages with their source (language, counter, owner indices); here are
    values only, AnonHeap.v has the sharing. *)

From Coq Require Import String Ascii.
From Verif Require Import Base Enums DDScalar Chunks Utf8 DDString DDRecord CardRecords CardIdent.
Local Open Scope list_scope.

(** The bytes of a Go string literal. *)
Fixpoint lit (s : string) : bytes :=
  match s with
  | EmptyString => []
  | String a t => Z.of_nat (nat_of_ascii a) :: lit t
  end.

(** 2020-01-01 00:00:00 UTC *)
Definition TEST_EPOCH : Z := 1577836800.

(** A StringValue with encoding ISO_8859_1 (number 4) and a length. *)
Definition test_string (n : Z) (s : string) : string_value := mkSV None 4 (Some n) (lit s).

(** internal/card/identification.go:16-21, createIA5StringValue. *)
Definition test_ia5 (n : Z) (s : string) : ia5 := mkIA5 None (Some n) (lit s).

(** ** Identification

    The whole message of proto card/v1/identification.proto; [identification] of
    CardIdent.v has the fields that the parser of driver cards fills. *)

Record full_card := mkFC {
  fc_nation : Z; fc_driver : option driver_number; fc_owner : option owner_id;
  fc_authority : option string_value;
  fc_issue : option timestamp; fc_begin : option timestamp; fc_expiry : option timestamp }.

(** WorkshopCardHolder and ControlCardHolder *)
Record body_holder := mkBH {
  bh_name : option string_value; bh_address : option string_value;
  bh_surname : option string_value; bh_first_names : option string_value;
  bh_language : option string_value }.

Record company_holder := mkCH {
  ch_name : option string_value; ch_address : option string_value;
  ch_language : option string_value }.

Record full_ident := mkFI {
  fi_type : Z; fi_card : option full_card;
  fi_driver : option ident_holder; fi_workshop : option body_holder;
  fi_control : option body_holder; fi_company : option company_holder;
  fi_signature : option bytes; fi_verified : bool }.

Definition CARD_TYPE_CONTROL : Z := 3.
Definition CARD_TYPE_COMPANY : Z := 4.

(** internal/dd/driver_identification.go:66-77 *)
Definition anonymize_driver_number (d : driver_number) : driver_number :=
  mkDN (Some (test_ia5 14 "DRIVER00000001")) None None.

(** identification.go:497-507 *)
Definition anonymize_owner (o : owner_id) : owner_id :=
  mkOI (Some (test_ia5 13 "OWNER00000001")) (oi_consecutive o) (oi_replacement o) (oi_renewal o).

(** identification.go:486-524 *)
Definition anonymize_card_part (c : full_card) : full_card :=
  mkFC (fc_nation c)
       (option_map anonymize_driver_number (fc_driver c))
       (option_map anonymize_owner (fc_owner c))
       (Some (test_string 35 "TEST_AUTHORITY"))
       (Some (mkTs 1577836800 0)) (Some (mkTs 1577836800 0)) (Some (mkTs 1735689599 0)).

(** identification.go:545-553; AppendDate of this date does not fail. *)
Definition test_birth : date :=
  let d := mkDate None 2000 1 1 in
  match append_date (Some d) with
  | Ok b => mkDate (Some b) 2000 1 1
  | _ => d
  end.

(** identification.go:528-559 *)
Definition anonymize_driver_holder (h : ident_holder) : ident_holder :=
  mkIH (Some (test_string 35 "TEST_SURNAME")) (Some (test_string 35 "TEST_FIRSTNAME"))
       (Some test_birth) (ih_language h).

(** identification.go:561-595 and :597-631 *)
Definition anonymize_body_holder (name : string) (h : body_holder) : body_holder :=
  mkBH (Some (test_string 35 name)) (Some (test_string 35 "TEST_ADDRESS"))
       (Some (test_string 35 "TEST_SURNAME")) (Some (test_string 35 "TEST_FIRSTNAME"))
       (bh_language h).

(** identification.go:633-654 *)
Definition anonymize_company_holder (h : company_holder) : company_holder :=
  mkCH (Some (test_string 35 "TEST_COMPANY")) (Some (test_string 35 "TEST_ADDRESS")) (ch_language h).

(** identification.go:477-661: only the holder that goes with the card type is
    carried over; signature and verification flag are not. *)
Definition anonymize_identification (x : full_ident) : full_ident :=
  let of_type {A} (t : Z) (o : option A) : option A := if fi_type x =? t then o else None in
  mkFI (fi_type x) (option_map anonymize_card_part (fi_card x))
       (of_type CARD_TYPE_DRIVER (option_map anonymize_driver_holder (fi_driver x)))
       (of_type CARD_TYPE_WORKSHOP (option_map (anonymize_body_holder "TEST_WORKSHOP") (fi_workshop x)))
       (of_type CARD_TYPE_CONTROL (option_map (anonymize_body_holder "TEST_CONTROL_BODY") (fi_control x)))
       (of_type CARD_TYPE_COMPANY (option_map anonymize_company_holder (fi_company x)))
       None false.

(** What the parser fills (CardIdent.v), as a whole message. *)
Definition full_of (x : identification) : full_ident :=
  mkFI (ident_type x)
       (option_map (fun c =>
          mkFC (id_nation c)
               (match id_number c with CN_driver d => Some d | _ => None end)
               (match id_number c with CN_owner o => Some o | _ => None end)
               (id_authority c) (id_issue c) (id_begin c) (id_expiry c)) (ident_card_part x))
       (ident_holder_part x) None None None None false.

(** What the writer reads (identification.go:294-463): the driver number goes
    before the owner number (:328, :353). *)
Definition written_of (x : full_ident) : identification :=
  mkIdent (fi_type x)
    (option_map (fun c =>
       mkIC (fc_nation c)
            (match fc_driver c, fc_owner c with
             | Some d, _ => CN_driver d
             | None, Some o => CN_owner o
             | None, None => CN_none
             end)
            (fc_authority c) (fc_issue c) (fc_begin c) (fc_expiry c)) (fi_card x))
    (fi_driver x).

(** ** Places *)

(** enum NationNumeric, FINLAND (proto dd/v1/nation_numeric.proto:35) *)
Definition FINLAND : Z := 21.

(** [if b, err := append(nil, x); err == nil { x.SetRawData(b) }] *)
Definition regenerate {A} (ap : A -> res bytes) (set : bytes -> A -> A) (x : A) : A :=
  match ap x with
  | Ok b => set b x
  | _ => x
  end.

Definition set_place_raw (b : bytes) (p : place) : place :=
  mkPlace b (pl_time p) (pl_entry p) (pl_entry_unrecognized p)
          (pl_country p) (pl_country_unrecognized p) (pl_region p) (pl_odometer p).

(** internal/dd/place_record.go:148-184; anonymizeTimestamp (:136) is the
    identity. *)
Definition anonymize_place (p : place) : place :=
  regenerate append_place set_place_raw
    (mkPlace [] (pl_time p) (pl_entry p) (pl_entry_unrecognized p)
             FINLAND None [1] (Z.quot (pl_odometer p) 100 * 100)).

Fixpoint mapi_from {A B} (f : Z -> A -> B) (i : Z) (l : list A) : list B :=
  match l with
  | [] => []
  | a :: t => f i a :: mapi_from f (i + 1) t
  end.

(** [for i, record := range records] *)
Definition mapi {A B} (f : Z -> A -> B) (l : list A) : list B := mapi_from f 0 l.

(** places.go:196-202: the fixed time of record [i], if it had one or is the
    first. *)
Definition stamp (i : Z) (o : option timestamp) : option timestamp :=
  match o with
  | None => if i =? 0 then Some (mkTs (TEST_EPOCH + i * 3600) 0) else None
  | Some _ => Some (mkTs (TEST_EPOCH + i * 3600) 0)
  end.

(** internal/card/places.go:184-204, anonymizeTimestampsInPlace. *)
Definition stamp_place (i : Z) (p : place) : place :=
  mkPlace (pl_raw p) (stamp i (pl_time p)) (pl_entry p) (pl_entry_unrecognized p)
          (pl_country p) (pl_country_unrecognized p) (pl_region p) (pl_odometer p).

(** internal/card/places.go:139-179 *)
Definition anonymize_places (x : places) : places :=
  let rs := map anonymize_place (ps_records x) in
  let rs := mapi stamp_place rs in
  let rs := map (regenerate append_place set_place_raw) rs in
  regenerate (fun p => append_places (Some p)) (fun b p => mkPlaces b (ps_newest p) (ps_records p))
    (mkPlaces [] (ps_newest x) rs).

(** internal/dd/gnss_place_record.go:118-140 *)
Definition anonymize_gnss (g : gnss_place) : gnss_place :=
  mkGP (gp_time g) (gp_accuracy g) (Some (mkGeo 60100 24560)).

(** internal/dd/place_record_g2.go:155-188 *)
Definition anonymize_place_g2 (p : place_g2) : place_g2 :=
  mkPlace2 [] (pl2_time p) (pl2_entry p) (pl2_entry_unrecognized p)
           FINLAND None [1] (Z.quot (pl2_odometer p) 100 * 100)
           (option_map anonymize_gnss (pl2_gnss p)).

(** places_g2.go:206-214 *)
Definition stamp_gnss (i : Z) (g : gnss_place) : gnss_place :=
  mkGP (match gp_time g with
        | Some _ => Some (mkTs (TEST_EPOCH + i * 3600) 0)
        | None => None
        end) (gp_accuracy g) (gp_geo g).

(** internal/card/places_g2.go:186-216 *)
Definition stamp_place_g2 (i : Z) (p : place_g2) : place_g2 :=
  mkPlace2 (pl2_raw p) (stamp i (pl2_time p)) (pl2_entry p) (pl2_entry_unrecognized p)
           (pl2_country p) (pl2_country_unrecognized p) (pl2_region p) (pl2_odometer p)
           (option_map (stamp_gnss i) (pl2_gnss p)).

Definition set_place_g2_raw (b : bytes) (p : place_g2) : place_g2 :=
  mkPlace2 b (pl2_time p) (pl2_entry p) (pl2_entry_unrecognized p)
           (pl2_country p) (pl2_country_unrecognized p) (pl2_region p) (pl2_odometer p) (pl2_gnss p).

(** internal/card/places_g2.go:141-181 *)
Definition anonymize_places_g2 (x : places_g2) : places_g2 :=
  let rs := map anonymize_place_g2 (ps2_records x) in
  let rs := mapi stamp_place_g2 rs in
  let rs := map (regenerate append_place_g2 set_place_g2_raw) rs in
  regenerate (fun p => append_places_g2 (Some p))
    (fun b p => mkPlaces2 b (ps2_newest p) (ps2_records p))
    (mkPlaces2 [] (ps2_newest x) rs).

(** ** Vehicles used *)

(** internal/dd/card_vehicle_record.go:174-192 *)
Definition anonymize_vreg (v : vreg) : vreg :=
  mkVR (vr_nation v) (Some (test_string 13 "TEST-VRN")).

Definition set_vehicle_raw (b : bytes) (r : card_vehicle) : card_vehicle :=
  mkCV b (cv_odo_begin r) (cv_odo_end r) (cv_first_use r) (cv_last_use r) (cv_reg r) (cv_counter r).

(** internal/dd/card_vehicle_record.go:156-205 *)
Definition anonymize_vehicle (i : Z) (r : card_vehicle) : card_vehicle :=
  let first := TEST_EPOCH + i * 86400 in
  regenerate append_card_vehicle set_vehicle_raw
    (mkCV [] (Z.quot (cv_odo_begin r) 1000 * 1000) (Z.quot (cv_odo_end r) 1000 * 1000)
          (Some (mkTs first 0)) (Some (mkTs (first + 86400 - 1) 0))
          (option_map anonymize_vreg (cv_reg r)) (cv_counter r)).

(** internal/card/vehicles_used.go:138-165 *)
Definition anonymize_vehicles (x : vehicles) : vehicles :=
  regenerate (fun v => append_vehicles (Some v)) (fun b v => mkVeh b (vs_newest v) (vs_records v))
    (mkVeh [] (vs_newest x) (mapi anonymize_vehicle (vs_records x))).
