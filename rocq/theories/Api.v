(** The exported functions: unmarshal.go, marshal.go, verify.go. *)

From Verif Require Import Base DDScalar RawTypes RawCard Infer Cert DriverCard Vu Verify.

(** file.proto: File.Type *)
Definition FILE_VEHICLE_UNIT : Z := 1.
Definition FILE_DRIVER_CARD : Z := 2.
Definition FILE_RAW_CARD : Z := 6.

(** file.proto: File; the fields with no Go code behind them are left out. *)
Record file := mkFile {
  file_type : Z; file_vu : option vu_file; file_driver_card : option driver_card;
  file_raw_card : option (list raw_record) }.

(** unmarshal.go:16-63 UnmarshalFile *)
Definition unmarshal_file (cm : Z -> Z -> Z) (d : bytes) : res file :=
  if (length d <? 2)%nat then Err EEOF
  else if nth 0 d 0 =? 0x76 then
    let* v := unmarshal_vu cm d in
    Ok (mkFile FILE_VEHICLE_UNIT (Some v) None None)
  else if be (sub d 0 2) =? 0x0002 then
    let* rs := unmarshal_raw_card_file d in
    if infer_file_type rs =? DRIVER_CARD then
      let* c := unmarshal_driver_card cm rs in
      Ok (mkFile FILE_DRIVER_CARD None (Some c) None)
    else Ok (mkFile FILE_RAW_CARD None None (Some rs))
  else fail.

(** marshal.go:12-23 MarshalFile; a nil file has type 0, a nil RawCardFile no
    records. *)
Definition marshal_file (o : option file) : res bytes :=
  match o with
  | None => fail
  | Some f =>
      if file_type f =? FILE_DRIVER_CARD then marshal_driver_card (file_driver_card f)
      else if file_type f =? FILE_VEHICLE_UNIT then marshal_vu (file_vu f)
      else if file_type f =? FILE_RAW_CARD then
        marshal_raw_card_file (match file_raw_card f with Some rs => rs | None => [] end)
      else fail
  end.

(** verify.go:42-67 VerifyOptions.VerifyFile with a resolver (the configured one or
    else [default_resolver]): the outcome and the file afterwards. *)
Definition verify_file (k : crypto) (r : resolver) (o : option file) : res unit * option file :=
  match o with
  | None => (fail, None)
  | Some f =>
      if file_type f =? FILE_DRIVER_CARD then
        match file_driver_card f with
        | None => (fail, Some f)
        | Some c =>
            let '(out, c') := verify_driver_card k (Some r) c in
            (out, Some (mkFile (file_type f) (file_vu f) (Some c') (file_raw_card f)))
        end
      else if (file_type f =? FILE_VEHICLE_UNIT) || (file_type f =? FILE_RAW_CARD) then (Ok tt, Some f)
      else (fail, Some f)
  end.
