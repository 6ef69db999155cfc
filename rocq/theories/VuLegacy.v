(** The exported day reader of internal/vu/activities.go and its helpers.

    UnmarshalVuActivities has no caller in the repository; it is the only code
    that looks into second-generation record arrays.  Simplifications: offsets are
    natural numbers; [target] is a fresh message, and what has been stored in it
    when an error is returned is not modelled. *)

From Verif Require Import Base Enums Chunks DDScalar Utf8 DDString DDRecord RawTypes Scanner Vu.

(** internal/vu/binary_parsing.go:12-17 readUint8FromBytes *)
Definition read_uint8 (d : bytes) (o : nat) : res (Z * nat) :=
  if (length d <=? o)%nat then Err EEOF else Ok (nth o d 0, (o + 1)%nat).

(** binary_parsing.go:20-27 readBytesFromBytes *)
Definition read_bytes (d : bytes) (o n : nat) : res (bytes * nat) :=
  if (length d <? o + n)%nat then Err EEOF else Ok (sub d o n, (o + n)%nat).

(** binary_parsing.go:30-37 readVuTimeRealFromBytes *)
Definition read_vu_time (d : bytes) (o : nat) : res (Z * nat) :=
  if (length d <? o + 4)%nat then Err EEOF else Ok (be (sub d o 4), (o + 4)%nat).

(** [timestamppb.New(time.Unix(v, 0))]: never nil, unlike dd.UnmarshalTimeReal. *)
Definition unix_time (v : Z) : option timestamp := Some (mkTs v 0).

(** activities.proto: CardIWRecord, GnssRecord, BorderCrossingRecord,
    LoadUnloadRecord, Activities.  Its PlaceRecord has the fields of [vu_place]. *)
Record day_iw := mkDayIW {
  di_holder : option holder_name; di_card : option card_number_gen; di_expiry : option date;
  di_insertion : option timestamp; di_odo_insertion : Z; di_slot : Z;
  di_withdrawal : option timestamp; di_odo_withdrawal : Z;
  di_previous : option previous_vehicle; di_manual : bool }.

Record day_gnss := mkDayGnss {
  dg_time : option timestamp; dg_accuracy : Z; dg_geo : option geo; dg_auth : Z }.

Record day_border := mkDayBorder {
  db_driver : option card_number_gen; db_codriver : option card_number_gen;
  db_left : Z; db_entered : Z; db_place : option day_gnss; db_odometer : Z }.

Record day_load := mkDayLoad {
  dl_time : option timestamp; dl_operation : Z;
  dl_driver : option card_number_gen; dl_codriver : option card_number_gen;
  dl_place : option day_gnss; dl_odometer : Z }.

Record vu_day := mkDay {
  dy_generation : Z; dy_version : Z; dy_date : option timestamp; dy_odometer : Z;
  dy_iw : list day_iw; dy_changes : list activity_change; dy_places : list vu_place;
  dy_gnss : list day_gnss; dy_conditions : list spec_cond;
  dy_borders : list day_border; dy_loads : list day_load;
  dy_signature1 : option bytes; dy_signature2 : option bytes }.

Definition VERSION_UNSPECIFIED : Z := 0.
Definition VERSION_2 : Z := 2.

(** A message with an empty card number of the first generation, stored in place
    of the decoded one: activities.go:954-957, 1511-1514, 1523-1526, 1693-1696,
    1705-1708. *)
Definition placeholder : card_number_gen := mkCNG (Some (mkFCN 0 0 None None)) GENERATION_1.

(** [for scanner.Scan()] over fixed-size records until [n] have been taken:
    activities.go:470-499 and, in the same words, the record arrays below.  A
    scanner error counts only if the loop has run into it. *)
Definition scan_records {X} (un : bytes -> res X) (k : nat) (d : bytes) (n o : nat) : res (list X * nat) :=
  let* rest := slice_from d o in
  match scan (split_fixed k) rest with
  | (ts, r, _) =>
      let* xs := map_res (fun t => un (tok_bytes t)) (firstn n ts) in
      let* _ := (if (n <? length ts)%nat then Ok tt else r) in
      Ok (xs, (o + length xs * k)%nat)
  end.

(** [for i := 0; i < n; i++] with a parser that advances the offset. *)
Fixpoint parse_records {X} (p : bytes -> nat -> res (X * nat)) (d : bytes) (n o : nat) : res (list X * nat) :=
  match n with
  | O => Ok ([], o)
  | S m =>
      let* (x, o) := p d o in
      let* (xs, o) := parse_records p d m o in
      Ok (x :: xs, o)
  end.

Section WithCharmaps.
Variable cm : Z -> Z -> Z.

(** ** First generation *)

(** activities.go:503-598 unmarshalVuCardIWRecord.  The manual input flag is taken
    from inside the previous vehicle (byte 125). *)
Definition unmarshal_day_iw (d : bytes) : res day_iw :=
  let* _ := guard (negb (length d <? 130)%nat) in
  let* h := unmarshal_holder_name cm (sub d 0 72) in
  let* c := unmarshal_full_card_number (sub d 72 19) in
  let* e := unmarshal_date (sub d 91 4) in
  let* (ti, _) := read_vu_time d 95 in
  let* oi := unmarshal_odometer (sub d 99 3) in
  let slot := nth 102 d 0 in
  let* (tw, _) := read_vu_time d 103 in
  let* ow := unmarshal_odometer (sub d 107 3) in
  let* p := unmarshal_previous_vehicle cm (sub d 110 19) in
  Ok (mkDayIW (Some h) (Some (mkCNG (Some c) GENERATION_1)) (Some e) (unix_time ti) oi slot
        (unix_time tw) ow (Some p) (negb (nth 125 d 0 =? 0))).

(** activities.go:458-500 parseVuCardIWData, 445-456 splitVuCardIWRecord *)
Definition parse_iw_data (d : bytes) (o : nat) : res (list day_iw * nat) :=
  let* (n, o) := read_uint8 d o in
  scan_records unmarshal_day_iw 126 d (Z.to_nat n) o.

(** activities.go:628-635 parseActivityChangeInfo *)
Definition parse_change (d : bytes) (o : nat) : res (activity_change * nat) :=
  let* b := slice d o (o + 2) in
  let* c := unmarshal_activity_change b in
  Ok (c, (o + 2)%nat).

(** activities.go:600-625 parseVuActivityDailyData *)
Definition parse_changes (d : bytes) (o : nat) : res (list activity_change * nat) :=
  let* (n, o) := read_uint8 d o in
  parse_records parse_change d (Z.to_nat n) o.

(** activities.go:665-708 unmarshalVuPlaceRecord; entry type and country are cast *)
Definition unmarshal_day_place (d : bytes) : res vu_place :=
  let* _ := guard (negb (length d <? 10)%nat) in
  let* (t, _) := read_vu_time d 0 in
  let* odo := unmarshal_odometer (sub d 7 3) in
  Ok (mkVP (unix_time t) (nth 4 d 0) (nth 5 d 0) [nth 6 d 0] odo).

(** activities.go:711-717 parseVuPlaceRecord *)
Definition parse_place (d : bytes) (o : nat) : res (vu_place * nat) :=
  let* b := slice d o (o + 10) in
  let* p := unmarshal_day_place b in
  Ok (p, (o + 10)%nat).

(** activities.go:637-662 parseVuPlaceDailyWorkPeriodData *)
Definition parse_places (d : bytes) (o : nat) : res (list vu_place * nat) :=
  let* (n, o) := read_uint8 d o in
  parse_records parse_place d (Z.to_nat n) o.

(** activities.go:747-754 parseVuSpecificConditionRecord *)
Definition parse_condition (d : bytes) (o : nat) : res (spec_cond * nat) :=
  let* b := slice d o (o + 5) in
  let* c := unmarshal_spec_cond b in
  Ok (c, (o + 5)%nat).

(** activities.go:719-744 parseVuSpecificConditionData *)
Definition parse_conditions (d : bytes) (o : nat) : res (list spec_cond * nat) :=
  let* (n, o) := read_uint8 d o in
  parse_records parse_condition d (Z.to_nat n) o.

(** activities.go:293-349 unmarshalVuActivitiesGen1: the message and the number of
    bytes consumed *)
Definition unmarshal_day_gen1 (d : bytes) (start : nat) : res (vu_day * nat) :=
  let* (t, o) := read_vu_time d start in
  let* b := slice d o (o + 3) in
  let* odo := unmarshal_odometer b in
  let* (iw, o) := parse_iw_data d (o + 3) in
  let* (cs, o) := parse_changes d o in
  let* (ps, o) := parse_places d o in
  let* (ks, o) := parse_conditions d o in
  let* (sig, o) := read_bytes d o 128 in
  Ok (mkDay GENERATION_1 VERSION_UNSPECIFIED (unix_time t) odo iw cs ps [] ks [] [] (Some sig) None,
      (o - start)%nat).

(** ** Second generation: record arrays *)

(** The header of a record array, read in the same words by every parser below
    (for instance activities.go:765-780): type, size and number of the records. *)
Definition read_header (d : bytes) (o : nat) : res (Z * Z * Z * nat) :=
  let* _ := guard (negb (length d <? o + 6)%nat) in
  Ok (be (sub d o 2), be (sub d (o + 2) 2), be (sub d (o + 4) 2), (o + 6)%nat).

(** activities.go:795-807, one TimeReal *)
Definition parse_date (d : bytes) (o : nat) : res (option timestamp * nat) :=
  let* _ := guard (negb (length d <? o + 4)%nat) in
  let* (t, o) := read_vu_time d o in
  Ok (unix_time t, o).

(** activities.go:757-810 parseDateOfDayDownloadedRecordArray *)
Definition parse_date_array (d : bytes) (o : nat) : res (list (option timestamp) * nat) :=
  let* (h, o) := read_header d o in
  let '(t, s, n) := h in
  let* _ := guard (t =? 1) in
  let* _ := guard (s =? 4) in
  parse_records parse_date d (Z.to_nat n) o.

(** activities.go:851-859, one OdometerShort *)
Definition parse_odometer (d : bytes) (o : nat) : res (Z * nat) :=
  let* b := slice d o (o + 3) in
  let* v := unmarshal_odometer b in
  Ok (v, (o + 3)%nat).

(** activities.go:812-862 parseOdometerValueMidnightRecordArray *)
Definition parse_odometer_array (d : bytes) (o : nat) : res (list Z * nat) :=
  let* (h, o) := read_header d o in
  let '(t, s, n) := h in
  let* _ := guard (t =? 2) in
  let* _ := guard (s =? 3) in
  parse_records parse_odometer d (Z.to_nat n) o.

(** activities.go:913-1027 parseVuCardIWRecordGen2 *)
Definition parse_iw_gen2 (d : bytes) (o : nat) : res (day_iw * nat) :=
  let* (b, o) := read_bytes d o 72 in
  let* h := unmarshal_holder_name cm b in
  let* (b, o) := read_bytes d o 20 in
  let* _ := unmarshal_card_number_gen b in
  let* _ := guard (negb (length d <? o + 4)%nat) in
  let* e := unmarshal_date (sub d o 4) in
  let* (ti, o) := read_vu_time d (o + 4) in
  let* b := slice d o (o + 3) in
  let* oi := unmarshal_odometer b in
  let* (slot, o) := read_uint8 d (o + 3) in
  let* (tw, o) := read_vu_time d o in
  let* b := slice d o (o + 3) in
  let* ow := unmarshal_odometer b in
  let* (b, o) := read_bytes d (o + 3) 20 in
  let* p := unmarshal_previous_vehicle cm b in
  let* (m, o) := read_uint8 d o in
  Ok (mkDayIW (Some h) (Some placeholder) (Some e) (unix_time ti) oi slot (unix_time tw) ow (Some p)
        (negb (m =? 0)), o).

(** activities.go:864-910 parseVuCardIWRecordArray; the record size is not looked
    at *)
Definition parse_iw_array (d : bytes) (o : nat) : res (list day_iw * nat) :=
  let* (h, o) := read_header d o in
  let '(t, _, n) := h in
  let* _ := guard (t =? 13) in
  parse_records parse_iw_gen2 d (Z.to_nat n) o.

(** The remaining arrays: header, type and size checks, then a scanner that cuts
    records of [k] bytes. *)
Definition parse_array {X} (un : bytes -> res X) (ty size : Z) (k : nat) (d : bytes) (o : nat)
  : res (list X * nat) :=
  let* (h, o) := read_header d o in
  let '(t, s, n) := h in
  let* _ := guard (t =? ty) in
  let* _ := guard (s =? size) in
  scan_records un k d (Z.to_nat n) o.

(** activities.go:1043-1109 parseVuActivityDailyRecordArray *)
Definition parse_change_array := parse_array unmarshal_activity_change 3 2 2.

(** activities.go:1125-1190 parseVuPlaceDailyWorkPeriodRecordArray *)
Definition parse_place_array := parse_array unmarshal_day_place 4 10 10.

(** activities.go:1274-1319 unmarshalVuGNSSADRecord *)
Definition unmarshal_day_gnss (d : bytes) : res day_gnss :=
  let* _ := guard (negb (length d <? 14)%nat) in
  let* (t, _) := read_vu_time d 0 in
  Ok (mkDayGnss (unix_time t) (nth 4 d 0)
        (Some (mkGeo (s32 (be (sub d 5 4))) (s32 (be (sub d 9 4))))) (nth 13 d 0)).

(** activities.go:1206-1271 parseVuGNSSADRecordArray *)
Definition parse_gnss_array := parse_array unmarshal_day_gnss 22 14 14.

(** activities.go:1335-1401 parseVuSpecificConditionRecordArray *)
Definition parse_condition_array := parse_array unmarshal_spec_cond 9 5 5.

(** activities.go:1557-1572 unmarshalGNSSPlaceAuthRecord; the unrecognized
    authentication status is not carried over *)
Definition unmarshal_day_place_auth (d : bytes) : res day_gnss :=
  let* r := unmarshal_gnss_place_auth d in
  Ok (mkDayGnss (gpa_time r) (gpa_accuracy r) (gpa_geo r) (gpa_auth r)).

(** activities.go:1485-1552 unmarshalVuBorderCrossingRecord *)
Definition unmarshal_day_border (d : bytes) : res day_border :=
  let* _ := guard (negb (length d <? 57)%nat) in
  let* _ := unmarshal_card_number_gen (sub d 0 20) in
  let* _ := unmarshal_card_number_gen (sub d 20 20) in
  let* p := unmarshal_day_place_auth (sub d 42 12) in
  let* odo := unmarshal_odometer (sub d 54 3) in
  Ok (mkDayBorder (Some placeholder) (Some placeholder) (nth 40 d 0) (nth 41 d 0) (Some p) odo).

(** activities.go:1417-1482 parseVuBorderCrossingRecordArray: a size of 59 is
    asked for, records of 57 bytes are cut *)
Definition parse_border_array := parse_array unmarshal_day_border 23 59 57.

(** activities.go:1656-1726 unmarshalVuLoadUnloadRecord *)
Definition unmarshal_day_load (d : bytes) : res day_load :=
  let* _ := guard (negb (length d <? 60)%nat) in
  let* t := unmarshal_time (sub d 0 4) in
  let* _ := unmarshal_card_number_gen (sub d 5 20) in
  let* _ := unmarshal_card_number_gen (sub d 25 20) in
  let* p := unmarshal_day_place_auth (sub d 45 12) in
  let* odo := unmarshal_odometer (sub d 57 3) in
  Ok (mkDayLoad t (nth 4 d 0) (Some placeholder) (Some placeholder) (Some p) odo).

(** activities.go:1588-1653 parseVuLoadUnloadRecordArray: a size of 58 is asked
    for, records of 60 bytes are cut *)
Definition parse_load_array := parse_array unmarshal_day_load 24 58 60.

(** activities.go:1729-1757 splitSignatureRecord *)
Definition split_signature : split_func :=
  fun data _ =>
    if (length data <? 6)%nat then SMore
    else
      let size := be (sub data 2 2) in
      if size =? 0 then SErr EOther
      else
        let total := (6 + Z.to_nat size)%nat in
        if (length data <? total)%nat then SMore else STok total.

(** activities.go:1759-1795 parseSignatureRecordArray: the first token only; the
    number of records is not looked at *)
Definition parse_signature (d : bytes) (o : nat) : res (bytes * nat) :=
  let* rest := slice_from d o in
  match scan split_signature rest with
  | ([], r, _) => let* _ := r in fail
  | (t :: _, _, _) =>
      let b := tok_bytes t in
      let* _ := guard (be (sub b 0 2) =? 8) in
      Ok (skipn 6 b, (o + length b)%nat)
  end.

(** activities.go:410-428, the arrays of version 2: border crossings, whether they
    were found, loads, and the offset.  An error is taken for absence. *)
Definition parse_version2 (d : bytes) (o : nat)
  : res (list day_border * bool * list day_load * nat) :=
  if (o + 10 <=? length d)%nat then
    let* (bs, v2, o) :=
      match parse_border_array d o with
      | Ok (bs, o') => Ok (bs, true, o')
      | Err _ => Ok ([], false, o)
      | Panic => Panic
      end in
    if (o + 5 <=? length d)%nat then
      match parse_load_array d o with
      | Ok (ls, o') => Ok (bs, v2, ls, o')
      | Err _ => Ok (bs, v2, [], o)
      | Panic => Panic
      end
    else Ok (bs, v2, [], o)
  else Ok ([], false, [], o).

(** activities.go:352-438 unmarshalVuActivitiesGen2 *)
Definition unmarshal_day_gen2 (d : bytes) (start : nat) : res (vu_day * nat) :=
  let* (ts, o) := parse_date_array d start in
  let* (os, o) := parse_odometer_array d o in
  let* (iw, o) := parse_iw_array d o in
  let* (cs, o) := parse_change_array d o in
  let* (ps, o) := parse_place_array d o in
  let* (gs, o) := parse_gnss_array d o in
  let* (ks, o) := parse_condition_array d o in
  let* (v, o) := parse_version2 d o in
  let '(bs, v2, ls) := v in
  let* (sig, o) := parse_signature d o in
  Ok (mkDay GENERATION_2 (if v2 : bool then VERSION_2 else VERSION_UNSPECIFIED)
        (hd None ts) (hd 0 os) iw cs ps gs ks bs ls None (Some sig), (o - start)%nat).

(** activities.go:281-290 UnmarshalVuActivities *)
Definition unmarshal_day (d : bytes) (start : nat) (generation : Z) : res (vu_day * nat) :=
  if generation =? 1 then unmarshal_day_gen1 d start
  else if generation =? 2 then unmarshal_day_gen2 d start
  else fail.

End WithCharmaps.

(** detailed_speed.go:95-122 UnmarshalVuDetailedSpeed and, with the same body,
    technical_data.go:204-231 UnmarshalVuTechnicalData (no callers): generation,
    everything from the offset on as the signature, the number of bytes consumed.
    For an offset behind the end [make] is called with a negative length. *)
Definition unmarshal_all_as_signature (d : bytes) (start : nat) (generation : Z) : res (Z * bytes * nat) :=
  if (length d <? start)%nat then Panic
  else
    Ok ((if generation =? 1 then GENERATION_1 else GENERATION_2), skipn start d, (length d - start)%nat).
