(** Reading vehicle unit files with Go's [int] of a given width: 64 bits, or 32 on
    GOARCH 386 and arm.

    The other parts of the model take [int] to be unbounded.  Here sums and products
    wrap around, and slicing is checked against negative bounds. *)

From Verif Require Import Base Enums DDScalar RawTypes RawCard Infer Cert DriverCard Vu Verify Api.

(** The Go spec, integer overflow: two's complement. *)
Definition int (w z : Z) : Z := (z + 2 ^ (w - 1)) mod 2 ^ w - 2 ^ (w - 1).

Section Width.
Variable w : Z.

(** [data[offset:]] *)
Definition from_w (d : bytes) (o : Z) : res bytes :=
  if (0 <=? o) && (o <=? len d) then Ok (skipn (Z.to_nat o) d) else Panic.

Definition number_at_w (n : nat) (d : bytes) (o : Z) : res Z :=
  let* t := from_w d o in
  let* _ := guard (negb (length t <? n)%nat) in
  Ok (be (sub t 0 n)).

(** [offset += n * size], the product with a constant *)
Definition step_w (o k n size : Z) : Z := int w (int w (o + k) + int w (n * size)).

(** raw_vehicle_unit_file.go:101-112 sizeOfRecordArray *)
Definition size_of_record_array_w (d : bytes) (o : Z) : res Z :=
  let* t := from_w d o in
  let* _ := guard (negb (length t <? 5)%nat) in
  Ok (int w (5 + int w (be (sub t 1 2) * be (sub t 3 2)))).

Fixpoint skip_record_arrays_w (n : nat) (d : bytes) (o : Z) : res Z :=
  match n with
  | O => Ok o
  | S m => let* s := size_of_record_array_w d o in skip_record_arrays_w m d (int w (o + s))
  end.

(** overview.go:47-89 sizeOfOverviewGen1 *)
Definition size_overview_gen1_w (d : bytes) : res Z :=
  let* locks := number_at_w 1 d 491 in
  let o := step_w 491 1 locks 98 in
  let* controls := number_at_w 1 d o in
  Ok (int w (step_w o 1 controls 31 + 128)).

(** activities.go:52-110 sizeOfActivitiesGen1 *)
Definition size_activities_gen1_w (d : bytes) : res Z :=
  let* n := number_at_w 2 d 7 in
  let o := step_w 7 2 n 129 in
  let* m := number_at_w 2 d o in
  let o := step_w o 2 m 2 in
  let* p := number_at_w 1 d o in
  let o := step_w o 1 p 28 in
  let* q := number_at_w 2 d o in
  Ok (int w (step_w o 2 q 5 + 128)).

(** events_faults.go:76-129 sizeOfEventsAndFaultsGen1 *)
Definition size_events_gen1_w (d : bytes) : res Z :=
  let* a := number_at_w 1 d 0 in
  let o := step_w 0 1 a 82 in
  let* b := number_at_w 1 d o in
  let o := int w (step_w o 1 b 83 + 9) in
  let* c := number_at_w 1 d o in
  let o := step_w o 1 c 31 in
  let* e := number_at_w 1 d o in
  Ok (int w (step_w o 1 e 98 + 128)).

(** detailed_speed.go:36-56 sizeOfDetailedSpeedGen1 *)
Definition size_speed_gen1_w (d : bytes) : res Z :=
  let* n := number_at_w 2 d 0 in Ok (int w (step_w 0 2 n 64 + 128)).

(** technical_data.go:66-90 sizeOfTechnicalDataGen1 *)
Definition size_technical_gen1_w (d : bytes) : res Z :=
  let* n := number_at_w 1 d 136 in Ok (int w (step_w 136 1 n 167 + 128)).

(** card_download.go:21-48 sizeOfCardDownload *)
Fixpoint size_card_download_w (fuel : nat) (d : bytes) (o : Z) : res Z :=
  match fuel with
  | O => Ok o
  | S k =>
      if o <? len d then
        let* t := from_w d o in
        if (length t <? 5)%nat then Ok o
        else
          let next := int w (o + int w (5 + be (sub t 3 2))) in
          let* _ := guard (negb (len d <? next)) in
          size_card_download_w k d next
      else Ok o
  end.

(** raw_vehicle_unit_file.go:71-90 sizeOfTransferValue *)
Definition size_of_transfer_value_w (t : transfer_type) (d : bytes) : res Z :=
  match t with
  | DOWNLOAD_INTERFACE_VERSION => size_interface_version d
  | OVERVIEW_GEN1 => size_overview_gen1_w d
  | ACTIVITIES_GEN1 => size_activities_gen1_w d
  | EVENTS_AND_FAULTS_GEN1 => size_events_gen1_w d
  | DETAILED_SPEED_GEN1 => size_speed_gen1_w d
  | TECHNICAL_DATA_GEN1 => size_technical_gen1_w d
  | CARD_DOWNLOAD => size_card_download_w (length d) d 0
  | _ => skip_record_arrays_w (arrays_sized t) d 0
  end.

(** raw_vehicle_unit_file.go:25-67 unmarshalRawVehicleUnitFile: the loop at offset
    [o] of the whole data. *)
Fixpoint split_vu_w (fuel : nat) (d : bytes) (o : Z) : res (list vu_record) :=
  match fuel with
  | O => Ok []
  | S k =>
      if o <? len d then
        let* _ := guard (negb (len d <? int w (o + 2))) in
        let* t := from_w d o in
        let tag := be (sub t 0 2) in
        let o := int w (o + 2) in
        match find_transfer_type tag with
        | None => fail
        | Some ty =>
            let* rest := from_w d o in
            let* n := size_of_transfer_value_w ty rest in
            let next := int w (o + n) in
            let* _ := guard (negb (len d <? next)) in
            if next <? o then Panic
            else
              let* rs := split_vu_w k d next in
              Ok (mkVR tag ty (sub d (Z.to_nat o) (Z.to_nat (next - o))) :: rs)
        end
      else Ok []
  end.

(** The second-generation transfers; see [unmarshal_gen2]. *)
Definition unmarshal_gen2_w (t : transfer_type) (value : bytes) : res bytes :=
  let* o := skip_record_arrays_w (arrays_parsed t) value 0 in
  let* _ := guard (o =? len value) in
  Ok value.

(** vehicle_unit_file.go:167-214, 216-268; see [step_gen2]. *)
Definition step_gen2_w (v2 : bool) (f : vu_gen2) (r : vu_record) : res vu_gen2 :=
  match role_gen2 v2 (vr_type r) with
  | None => fail
  | Some R_skip => Ok f
  | Some R_overview =>
      let* x := unmarshal_gen2_w (vr_type r) (vr_value r) in
      Ok (mkG2 (Some x) (g2_activities f) (g2_events f) (g2_speed f) (g2_technical f))
  | Some R_activities =>
      let* x := unmarshal_gen2_w (vr_type r) (vr_value r) in
      Ok (mkG2 (g2_overview f) (g2_activities f ++ [x]) (g2_events f) (g2_speed f) (g2_technical f))
  | Some R_events =>
      let* x := unmarshal_gen2_w (vr_type r) (vr_value r) in
      Ok (mkG2 (g2_overview f) (g2_activities f) (g2_events f ++ [x]) (g2_speed f) (g2_technical f))
  | Some R_speed =>
      let* x := unmarshal_gen2_w (vr_type r) (vr_value r) in
      Ok (mkG2 (g2_overview f) (g2_activities f) (g2_events f) (g2_speed f ++ [x]) (g2_technical f))
  | Some R_technical =>
      let* x := unmarshal_gen2_w (vr_type r) (vr_value r) in
      Ok (mkG2 (g2_overview f) (g2_activities f) (g2_events f) (g2_speed f) (g2_technical f ++ [x]))
  end.

Variable cm : Z -> Z -> Z.

(** vehicle_unit_file.go:48-97 unmarshalVehicleUnitFile.  The parsers of
    first-generation transfers are taken as they are: they run on values that are in
    the file and compare each offset with their length before they go on. *)
Definition unmarshal_vu_w (d : bytes) : res vu_file :=
  let* rs := split_vu_w (length d) d 0 in
  match rs with
  | [] => fail
  | r :: _ =>
      let g := transfer_generation (vr_type r) in
      if g =? GENERATION_1 then
        let* f := fold_res (step_gen1 cm) empty_gen1 rs in Ok (VuGen1 f)
      else if g =? GENERATION_2 then
        if has_gen2_v2_transfers rs then
          let* f := fold_res (step_gen2_w true) empty_gen2 rs in Ok (VuGen2V2 f)
        else
          let* f := fold_res (step_gen2_w false) empty_gen2 rs in Ok (VuGen2V1 f)
      else fail
  end.

(** unmarshal.go:16-63 UnmarshalFile.  Card files have lengths of two bytes only;
    their reader is taken as it is. *)
Definition unmarshal_file_w (d : bytes) : res file :=
  if (length d <? 2)%nat then Err EEOF
  else if nth 0 d 0 =? 0x76 then
    let* v := unmarshal_vu_w d in
    Ok (mkFile FILE_VEHICLE_UNIT (Some v) None None)
  else unmarshal_file cm d.

End Width.
