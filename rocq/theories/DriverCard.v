(** Driver card files: internal/card/driver_card_file.go. *)

From Verif Require Import Base Chunks DDScalar DDString DDRecord RawTypes RawCard Infer.
From Verif Require Import CardBasic CardRecords CardIdent CardActivity Cert.

(** ** The message

    driver_card_file.proto: DriverCardFile holds two files of the master file and
    two optional applications, DriverCardFile.Tachograph and
    DriverCardFile.TachographG2.  Each field of these three messages is a slot. *)

Inductive app := Master | Gen1 | Gen2.

Inductive slot :=
  | S_icc | S_ic
  (* DriverCardFile.Tachograph *)
  | S_app_id | S_licence | S_identification | S_events | S_faults | S_activity | S_vehicles
  | S_places | S_usage | S_control | S_conditions | S_download | S_card_cert | S_ca_cert
  (* DriverCardFile.TachographG2 *)
  | S2_app_id | S2_licence | S2_identification | S2_events | S2_faults | S2_activity
  | S2_vehicles | S2_places | S2_usage | S2_control | S2_conditions | S2_download
  | S2_units | S2_gnss | S2_app_v2 | S2_ma_cert | S2_sign_cert | S2_ca_cert | S2_link_cert.

Definition slot_eq_dec (s t : slot) : {s = t} + {s <> t}.
Proof. decide equality. Defined.

(** The message a slot belongs to. *)
Definition slot_app (s : slot) : app :=
  match s with
  | S_icc | S_ic => Master
  | S_app_id | S_licence | S_identification | S_events | S_faults | S_activity | S_vehicles
  | S_places | S_usage | S_control | S_conditions | S_download | S_card_cert | S_ca_cert => Gen1
  | _ => Gen2
  end.

(** The elementary file it is read from and written as. *)
Definition slot_file (s : slot) : Z :=
  match s with
  | S_icc => EF_ICC
  | S_ic => EF_IC
  | S_app_id | S2_app_id => EF_APPLICATION_IDENTIFICATION
  | S_licence | S2_licence => EF_DRIVING_LICENCE_INFO
  | S_identification | S2_identification => EF_IDENTIFICATION
  | S_events | S2_events => EF_EVENTS_DATA
  | S_faults | S2_faults => EF_FAULTS_DATA
  | S_activity | S2_activity => EF_DRIVER_ACTIVITY_DATA
  | S_vehicles | S2_vehicles => EF_VEHICLES_USED
  | S_places | S2_places => EF_PLACES
  | S_usage | S2_usage => EF_CURRENT_USAGE
  | S_control | S2_control => EF_CONTROL_ACTIVITY_DATA
  | S_conditions | S2_conditions => EF_SPECIFIC_CONDITIONS
  | S_download | S2_download => EF_CARD_DOWNLOAD_DRIVER
  | S_card_cert => EF_CARD_CERTIFICATE
  | S_ca_cert | S2_ca_cert => EF_CA_CERTIFICATE
  | S2_units => EF_VEHICLE_UNITS_USED
  | S2_gnss => EF_GNSS_PLACES
  | S2_app_v2 => EF_APPLICATION_IDENTIFICATION_V2
  | S2_ma_cert => EF_CARD_MA_CERTIFICATE
  | S2_sign_cert => EF_CARD_SIGN_CERTIFICATE
  | S2_link_cert => EF_LINK_CERTIFICATE
  end.

(** The type of its value, without the signature field; certificates without the
    message wrapped around them (a wrapper with no certificate in it is treated like
    an absent wrapper everywhere). *)
Definition content (s : slot) : Type :=
  match s with
  | S_icc => icc
  | S_ic => ic
  | S_app_id => app_id
  | S2_app_id => app_id_g2
  | S_licence | S2_licence => driving_licence
  | S_identification | S2_identification => identification
  | S_events | S2_events | S_faults | S2_faults => list event
  | S_activity | S2_activity => activity
  | S_vehicles => vehicles
  | S2_vehicles => vehicles_g2
  | S_places => places
  | S2_places => places_g2
  | S_usage | S2_usage => current_usage
  | S_control | S2_control => control_activity
  | S_conditions => conditions
  | S2_conditions => conditions_g2
  | S_download | S2_download => option timestamp
  | S2_units => units_used
  | S2_gnss => gnss_places
  | S2_app_v2 => app_id_v2
  | S_card_cert | S_ca_cert => rsa_cert
  | S2_ma_cert | S2_sign_cert | S2_ca_cert | S2_link_cert => ecc_cert
  end.

(** A slot's value with the bytes in its signature field, if any. *)
Definition entry (s : slot) : Type := (content s * option bytes)%type.

(** DriverCardFile: [dc_has] says which applications are present, [dc_slot] holds
    the fields.  The fields of an absent application do not exist in the Go message;
    they are reachable only through [slot_of_card]. *)
Record driver_card := mkDC { dc_has : app -> bool; dc_slot : forall s, option (entry s) }.

(** The getters: card.GetTachograph().GetPlaces() and so on are nil-safe. *)
Definition slot_of_card (c : driver_card) (s : slot) : option (entry s) :=
  if dc_has c (slot_app s) then dc_slot c s else None.

(** &cardv1.DriverCardFile{} *)
Definition empty_card : driver_card :=
  mkDC (fun a => match a with Master => true | _ => false end) (fun _ => None).

Definition app_eqb (a b : app) : bool :=
  match a, b with Master, Master | Gen1, Gen1 | Gen2, Gen2 => true | _, _ => false end.

(** The setters, creating the application first if it is absent. *)
Definition set_slot (c : driver_card) (s : slot) (v : entry s) : driver_card :=
  mkDC (fun a => app_eqb a (slot_app s) || dc_has c a)
    (fun t => match slot_eq_dec s t with
              | left e => Some (eq_rect s entry v t e)
              | right _ => slot_of_card c t
              end).

(** ** Parsing *)

Section WithCharmaps.
Variable cm : Z -> Z -> Z.

(** The unmarshal function called for a slot. *)
Definition unmarshal_content (s : slot) : bytes -> res (content s) :=
  match s return bytes -> res (content s) with
  | S_icc => unmarshal_icc
  | S_ic => unmarshal_ic
  | S_app_id => unmarshal_app_id
  | S2_app_id => unmarshal_app_id_g2
  | S_licence | S2_licence => unmarshal_driving_licence cm
  | S_identification | S2_identification => unmarshal_identification cm
  | S_events | S2_events | S_faults | S2_faults => unmarshal_events cm
  | S_activity | S2_activity => unmarshal_activity
  | S_vehicles => unmarshal_vehicles cm
  | S2_vehicles => unmarshal_vehicles_g2 cm
  | S_places => unmarshal_places
  | S2_places => unmarshal_places_g2
  | S_usage | S2_usage => unmarshal_current_usage cm
  | S_control | S2_control => unmarshal_control_activity cm
  | S_conditions => unmarshal_conditions
  | S2_conditions => unmarshal_conditions_g2
  | S_download | S2_download => unmarshal_card_download
  | S2_units => unmarshal_units_used
  | S2_gnss => unmarshal_gnss_places
  | S2_app_v2 => unmarshal_app_id_v2
  | S_card_cert | S_ca_cert => unmarshal_rsa
  | S2_ma_cert | S2_sign_cert | S2_ca_cert | S2_link_cert => unmarshal_ecc
  end.

(** The files after which a signature record is an error. *)
Definition rejects_signature (s : slot) : bool :=
  match s with
  | S_icc | S_ic | S_download | S2_download | S_card_cert | S_ca_cert
  | S2_ma_cert | S2_sign_cert | S2_ca_cert | S2_link_cert => true
  | _ => false
  end.

(** The routing in the switch of driver_card_file.go:82-605: [Ok None] for a file
    without a case, an error for a generation without one.  Some of the cases parse
    the value before they reject the generation; since both outcomes are errors the
    order does not matter here. *)
Definition by_generation (g : Z) (s1 s2 : slot) : res (option slot) :=
  if g =? GENERATION_1 then Ok (Some s1)
  else if g =? GENERATION_2 then Ok (Some s2)
  else fail.

Definition only_generation (want g : Z) (s : slot) : res (option slot) :=
  if g =? want then Ok (Some s) else fail.

Definition route (file g : Z) : res (option slot) :=
  if file =? EF_ICC then Ok (Some S_icc)
  else if file =? EF_IC then Ok (Some S_ic)
  else if file =? EF_IDENTIFICATION then by_generation g S_identification S2_identification
  else if file =? EF_APPLICATION_IDENTIFICATION then by_generation g S_app_id S2_app_id
  else if file =? EF_DRIVING_LICENCE_INFO then by_generation g S_licence S2_licence
  else if file =? EF_EVENTS_DATA then by_generation g S_events S2_events
  else if file =? EF_FAULTS_DATA then by_generation g S_faults S2_faults
  else if file =? EF_DRIVER_ACTIVITY_DATA then by_generation g S_activity S2_activity
  else if file =? EF_VEHICLES_USED then by_generation g S_vehicles S2_vehicles
  else if file =? EF_PLACES then by_generation g S_places S2_places
  else if file =? EF_CURRENT_USAGE then by_generation g S_usage S2_usage
  else if file =? EF_CONTROL_ACTIVITY_DATA then by_generation g S_control S2_control
  else if file =? EF_SPECIFIC_CONDITIONS then by_generation g S_conditions S2_conditions
  else if file =? EF_CARD_DOWNLOAD_DRIVER then by_generation g S_download S2_download
  else if file =? EF_VEHICLE_UNITS_USED then Ok (Some S2_units)
  else if file =? EF_GNSS_PLACES then Ok (Some S2_gnss)
  else if file =? EF_APPLICATION_IDENTIFICATION_V2 then Ok (Some S2_app_v2)
  else if file =? EF_CARD_CERTIFICATE then only_generation GENERATION_1 g S_card_cert
  else if file =? EF_CARD_MA_CERTIFICATE then only_generation GENERATION_2 g S2_ma_cert
  else if file =? EF_CARD_SIGN_CERTIFICATE then only_generation GENERATION_2 g S2_sign_cert
  else if file =? EF_CA_CERTIFICATE then by_generation g S_ca_cert S2_ca_cert
  else if file =? EF_LINK_CERTIFICATE then only_generation GENERATION_2 g S2_link_cert
  else Ok None.

(** driver_card_file.go:62-606, one iteration for a data record and the signature
    found behind it.  The version context taken from CardStructureVersion
    (lines 140-144, 161-165) is handed to the parsers but none of them reads it, so
    it is left out.  A zero-length signature value is a non-nil empty slice. *)
Definition step (c : driver_card) (r : raw_record) (sg : option bytes) : res driver_card :=
  let* o := route (rr_file r) (rr_generation r) in
  match o with
  | None => Ok c
  | Some s =>
      let* v := unmarshal_content s (rr_value r) in
      let* _ := guard (negb (rejects_signature s && match sg with None => false | Some _ => true end)) in
      Ok (set_slot c s (v, sg))
  end.

(** driver_card_file.go:56-606, the loop over the records. *)
Fixpoint unmarshal_records (c : driver_card) (rs : list raw_record) {struct rs} : res driver_card :=
  match rs with
  | [] => Ok c
  | r :: rest =>
      let* _ := guard (rr_content r =? CONTENT_DATA) in
      match rest with
      | [] => step c r None
      | n :: rest' =>
          if (rr_file n =? rr_file r) && (rr_content n =? CONTENT_SIGNATURE)
          then let* c' := step c r (Some (rr_value n)) in unmarshal_records c' rest'
          else let* c' := step c r None in unmarshal_records c' rest
      end
  end.

(** driver_card_file.go:46-621 unmarshalDriverCardFile *)
Definition unmarshal_driver_card (rs : list raw_record) : res driver_card :=
  unmarshal_records empty_card rs.

End WithCharmaps.

(** ** Writing *)

(** The append function called for a slot.  EF Identification is assembled from its
    two halves (driver_card_file.go:651-668); certificates contribute their raw
    bytes. *)
Definition append_content (s : slot) : content s -> res bytes :=
  match s return content s -> res bytes with
  | S_icc => fun x => append_icc (Some x)
  | S_ic => fun x => append_ic (Some x)
  | S_app_id => fun x => append_app_id (Some x)
  | S2_app_id => fun x => append_app_id_g2 (Some x)
  | S_licence | S2_licence => fun x => append_driving_licence (Some x)
  | S_identification | S2_identification => fun x => append_identification (Some x)
  | S_events | S2_events | S_faults | S2_faults => fun x => append_events (Some x)
  | S_activity | S2_activity => fun x => append_activity (Some x)
  | S_vehicles => fun x => append_vehicles (Some x)
  | S2_vehicles => fun x => append_vehicles_g2 (Some x)
  | S_places => fun x => append_places (Some x)
  | S2_places => fun x => append_places_g2 (Some x)
  | S_usage | S2_usage => fun x => append_current_usage (Some x)
  | S_control | S2_control => fun x => append_control_activity (Some x)
  | S_conditions => fun x => append_conditions (Some x)
  | S2_conditions => fun x => append_conditions_g2 (Some x)
  | S_download | S2_download => fun x => append_card_download (Some x)
  | S2_units => fun x => append_units_used (Some x)
  | S2_gnss => fun x => append_gnss_places (Some x)
  | S2_app_v2 => fun x => append_app_id_v2 (Some x)
  | S_card_cert | S_ca_cert => fun x => Ok (rsa_raw x)
  | S2_ma_cert | S2_sign_cert | S2_ca_cert | S2_link_cert => fun x => Ok (ecc_raw x)
  end.

(** The file_id option of an elementary file type. *)
Definition file_id (ef : Z) : Z :=
  match find (fun p => fst p =? ef) file_ids with Some (_, i) => i | None => 0 end.

(** A tag, an appendix, a two-byte length and a value. *)
Definition tlv_bytes (ef appendix : Z) (v : bytes) : bytes :=
  to_be 2 (u16 (file_id ef)) ++ [appendix] ++ to_be 2 (u16 (Z.of_nat (length v))) ++ v.

(** How a slot is written: with appendTlv (lines 880-925: appendix 00, then a
    signature record 01 of 128 zero bytes), appendTlvUnsigned (928-966), appendTlvG2
    (969-1014: 02 and 03), appendCertificateEF (841-857) or appendCertificateEFG2
    (861-877). *)
Inductive style := Signed | Unsigned | SignedG2 | Certificate | CertificateG2.

Definition write_tlv (k : style) (ef : Z) (v : bytes) : bytes :=
  match k with
  | Signed => tlv_bytes ef 0 v ++ tlv_bytes ef 1 (zeros 128)
  | Unsigned => tlv_bytes ef 0 v
  | SignedG2 => tlv_bytes ef 2 v ++ tlv_bytes ef 3 (zeros 128)
  | Certificate => if (length v =? 0)%nat then [] else tlv_bytes ef 0 v
  | CertificateG2 => if (length v =? 0)%nat then [] else tlv_bytes ef 2 v
  end.

(** driver_card_file.go:625-827 appendDriverCard: what is written, in this order.
    The remaining fields of TachographG2 are never written. *)
Definition marshal_order : list (slot * style) :=
  [(S_icc, Unsigned); (S_ic, Unsigned);
   (S_app_id, Signed); (S_licence, Signed); (S_identification, Signed);
   (S_events, Signed); (S_faults, Signed); (S_activity, Signed); (S_vehicles, Signed);
   (S_places, Signed); (S_usage, Signed); (S_control, Signed); (S_conditions, Signed);
   (S_download, Unsigned);
   (S2_app_id, SignedG2); (S2_vehicles, SignedG2); (S2_places, SignedG2);
   (S2_conditions, SignedG2); (S2_units, SignedG2); (S2_gnss, SignedG2); (S2_app_v2, SignedG2);
   (S_card_cert, Certificate); (S_ca_cert, Certificate);
   (S2_ma_cert, CertificateG2); (S2_sign_cert, CertificateG2);
   (S2_ca_cert, CertificateG2); (S2_link_cert, CertificateG2)].

Definition write_slot (c : driver_card) (p : slot * style) : res bytes :=
  match slot_of_card c (fst p) with
  | None => Ok []
  | Some (v, _) =>
      let* b := append_content (fst p) v in
      Ok (write_tlv (snd p) (slot_file (fst p)) b)
  end.

(** driver_card_file.go:24-34 MarshalDriverCardFile, 625-827 appendDriverCard *)
Definition marshal_driver_card (o : option driver_card) : res bytes :=
  match o with
  | None => fail
  | Some c => concat_res (write_slot c) marshal_order
  end.
