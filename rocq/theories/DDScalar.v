(** Scalar data types of the data dictionary (internal/dd). *)

From Verif Require Import Base Enums.

(** ** BCD *)

(** hex.EncodeToString: the high and low nibble of each byte. *)
Fixpoint nibbles (l : bytes) : list Z :=
  match l with
  | [] => []
  | b :: t => b / 16 :: b mod 16 :: nibbles t
  end.

Definition dec_val (ds : list Z) : Z := fold_left (fun a d => a * 10 + d) ds 0.

Definition max_int64 : Z := 9223372036854775807.

(** internal/dd/bcd.go:10-20, decodeBCD.  strconv.ParseInt(s, 10, 64) of a hex
    string fails on the digits a..f and on overflow. *)
Definition decode_bcd (b : bytes) : res Z :=
  if (length b =? 0)%nat then Ok 0
  else if forallb (fun d => d <? 10) (nibbles b) && (dec_val (nibbles b) <=? max_int64)
  then Ok (dec_val (nibbles b))
  else fail.

(** strconv.Itoa of a non-negative number, as a list of digits. *)
Fixpoint itoa_fuel (fuel : nat) (v : Z) : list Z :=
  match fuel with
  | O => []
  | S f => if v <? 10 then [v] else itoa_fuel f (v / 10) ++ [v mod 10]
  end.
Definition itoa (v : Z) : list Z := itoa_fuel (S (Z.to_nat (Z.log2 v))) v.

(** hex.AppendDecode of an even number of digits. *)
Fixpoint pack_nibbles (ds : list Z) : bytes :=
  match ds with
  | h :: l :: t => h * 16 + l :: pack_nibbles t
  | _ => []
  end.

(** internal/dd/bcd.go:25-45, appendBCD. *)
Definition append_bcd (value : Z) (len : nat) : res bytes :=
  if value <? 0 then fail
  else
    let s := itoa value in
    if (2 * len <? length s)%nat then fail
    else Ok (pack_nibbles (zeros (2 * len - length s) ++ s)).

(** proto dd/v1/bcd_string.proto: BcdString. *)
Record bcd_string := mkBcd { bcd_value : Z; bcd_length : Z }.

(** internal/dd/bcd_string.go:19-31, UnmarshalBcdString. *)
Definition unmarshal_bcd_string (input : bytes) : res bcd_string :=
  let* _ := guard (negb (length input =? 0)%nat) in
  let* v := decode_bcd input in
  Ok (mkBcd (s32 v) (Z.of_nat (length input))).

(** internal/dd/bcd_string.go:46-59, AppendBcdString (nil appends nothing). *)
Definition append_bcd_string (o : option bcd_string) : res bytes :=
  match o with
  | None => Ok []
  | Some b =>
      if bcd_value b <? 0 then fail
      else if bcd_length b <=? 0 then fail
      else append_bcd (bcd_value b) (Z.to_nat (bcd_length b))
  end.

(** ** Odometer *)

(** internal/dd/odometer.go:18-22, AppendOdometer: the low three bytes. *)
Definition append_odometer (v : Z) : bytes := sub (to_be 4 v) 1 3.

(** internal/dd/odometer.go:34-44, UnmarshalOdometer. *)
Definition unmarshal_odometer (d : bytes) : res Z :=
  let* _ := guard (length d =? 3)%nat in Ok (be d).

(** ** TimeReal *)

(** google.protobuf.Timestamp *)
Record timestamp := mkTs { ts_seconds : Z; ts_nanos : Z }.

(** internal/dd/time_real.go:21-31, UnmarshalTimeReal. *)
Definition unmarshal_time (d : bytes) : res (option timestamp) :=
  let* _ := guard (length d =? 4)%nat in
  let v := be d in
  if v =? 0 then Ok None else Ok (Some (mkTs v 0)).

(** internal/dd/time_real.go:43-48, AppendTimeReal. *)
Definition append_time (o : option timestamp) : res bytes :=
  let ts := odflt (mkTs 0 0) o in
  let* _ := guard (negb (0 <? ts_nanos ts)) in
  Ok (to_be 4 (ts_seconds ts)).

(** ** CardStructureVersion *)

Record csv := mkCsv { csv_raw : option bytes; csv_major : Z; csv_minor : Z }.

(** internal/dd/card_structure_version.go:24-34. *)
Definition unmarshal_csv (d : bytes) : res csv :=
  let* _ := guard (length d =? 2)%nat in
  let b0 := nth 0 d 0 in let b1 := nth 1 d 0 in
  Ok (mkCsv (Some d) (b0 / 16 * 10 + b0 mod 16) (b1 / 16 * 10 + b1 mod 16)).

(** The [HasRawData] canvas check shared by several encoders: absent raw data
    gives a zero canvas, present raw data of another length is an error. *)
Definition raw_canvas (n : nat) (raw : option bytes) : res bytes :=
  match raw with
  | None => Ok (zeros n)
  | Some r => if (length r =? n)%nat then Ok r else fail
  end.

Definition bcd2 (v : Z) : Z :=
  Z.lor (u8 (Z.quot v 10 * 16)) (u8 (Z.rem v 10)).

(** internal/dd/card_structure_version.go:50-69 (a nil message reads as zeros). *)
Definition append_csv (o : option csv) : res bytes :=
  let c := odflt (mkCsv None 0 0) o in
  let* canvas := raw_canvas 2 (csv_raw c) in
  Ok (set_byte (set_byte canvas 0 (bcd2 (csv_major c))) 1 (bcd2 (csv_minor c))).

(** ** Date *)

Record date := mkDate { date_raw : option bytes; date_year : Z; date_month : Z; date_day : Z }.

(** internal/dd/date.go:21-35, UnmarshalDate. *)
Definition unmarshal_date (d : bytes) : res date :=
  let* _ := guard (length d =? 4)%nat in
  let b i := nth i d 0 in
  Ok (mkDate (Some d)
        (b 0%nat / 16 * 1000 + b 0%nat mod 16 * 100 + b 1%nat / 16 * 10 + b 1%nat mod 16)
        (b 2%nat / 16 * 10 + b 2%nat mod 16)
        (b 3%nat / 16 * 10 + b 3%nat mod 16)).

(** [byte(x%10<<4 | y%10)] on Go ints. *)
Definition date_digits (x y : Z) : Z := u8 (Z.lor (Z.rem x 10 * 16) (Z.rem y 10)).

(** internal/dd/date.go:49-69, AppendDate (a nil message reads as zeros). *)
Definition append_date (o : option date) : res bytes :=
  let d := odflt (mkDate None 0 0 0) o in
  let* canvas := raw_canvas 4 (date_raw d) in
  let y := date_year d in let m := date_month d in let dd := date_day d in
  let c := set_byte canvas 0 (date_digits (Z.quot y 1000) (Z.quot y 100)) in
  let c := set_byte c 1 (date_digits (Z.quot y 10) y) in
  let c := set_byte c 2 (date_digits (Z.quot m 10) m) in
  Ok (set_byte c 3 (date_digits (Z.quot dd 10) dd)).

(** ** MonthYear *)

(** [my_raw] is [] when absent (only its length is consulted). *)
Record month_year := mkMY { my_raw : bytes; my_month : Z; my_year : Z }.

(** internal/dd/month_year.go:20-46, UnmarshalMonthYear. *)
Definition unmarshal_month_year (d : bytes) : res month_year :=
  let* _ := guard (length d =? 2)%nat in
  match decode_bcd d with
  | Ok v => if 0 <? v then Ok (mkMY d (v / 100) (v mod 100 + 2000)) else Ok (mkMY d 0 0)
  | Err _ => Ok (mkMY d 0 0)
  | Panic => Panic
  end.

(** internal/dd/month_year.go:59-91, AppendMonthYear. *)
Definition append_month_year (o : option month_year) : res bytes :=
  let m := odflt (mkMY [] 0 0) o in
  let* canvas := (if (0 <? length (my_raw m))%nat
                  then raw_canvas 2 (Some (my_raw m)) else Ok (zeros 2)) in
  let y := Z.rem (my_year m) 100 in
  let c := set_byte canvas 0 (u8 (Z.lor (Z.quot (my_month m) 10 * 16) (Z.rem (my_month m) 10))) in
  Ok (set_byte c 1 (u8 (Z.lor (Z.quot y 10 * 16) (Z.rem y 10)))).

(** ** ControlType *)

Record control_type := mkCT {
  ct_raw : option bytes;
  ct_card_downloading : bool; ct_vu_downloading : bool; ct_printing : bool;
  ct_display : bool; ct_calibration_checking : bool }.

(** internal/dd/controltype.go:16-29, UnmarshalControlType. *)
Definition unmarshal_control_type (input : bytes) : res control_type :=
  let* _ := guard (negb (length input =? 0)%nat) in
  let b := nth 0 input 0 in
  Ok (mkCT (Some input) (Z.testbit b 7) (Z.testbit b 6) (Z.testbit b 5)
        (Z.testbit b 4) (Z.testbit b 3)).

Definition or_flag (c : bool) (m b : Z) : Z := if c then Z.lor b m else b.

(** internal/dd/controltype.go:46-74, AppendControlType. *)
Definition append_control_type (o : option control_type) : res bytes :=
  let c := odflt (mkCT None false false false false false) o in
  let* canvas := raw_canvas 1 (ct_raw c) in
  let b := nth 0 canvas 0 in
  Ok [or_flag (ct_calibration_checking c) 8
       (or_flag (ct_display c) 16
         (or_flag (ct_printing c) 32
           (or_flag (ct_vu_downloading c) 64
             (or_flag (ct_card_downloading c) 128 b))))].

(** ** GeoCoordinates *)

Record geo := mkGeo { geo_latitude : Z; geo_longitude : Z }.

(** internal/dd/geo_coordinates.go:40-49, readInt24. *)
Definition read_int24 (d : bytes) : Z :=
  let v := be d in
  if Z.testbit v 23 then s32 (Z.lor v 4278190080) else v.

(** internal/dd/geo_coordinates.go:25-36. *)
Definition unmarshal_geo (d : bytes) : res geo :=
  let* _ := guard (length d =? 6)%nat in
  Ok (mkGeo (read_int24 (sub d 0 3)) (read_int24 (sub d 3 3))).

(** internal/dd/geo_coordinates.go:77-81, appendInt24. *)
Definition append_int24 (v : Z) : bytes :=
  [u8 (Z.shiftr v 16); u8 (Z.shiftr v 8); u8 v].

(** internal/dd/geo_coordinates.go:67-73 (a nil message reads as zeros). *)
Definition append_geo (o : option geo) : bytes :=
  let g := odflt (mkGeo 0 0) o in
  append_int24 (geo_latitude g) ++ append_int24 (geo_longitude g).

(** ** ActivityChangeInfo *)

Record activity_change := mkAC {
  ac_raw : option bytes; ac_slot : Z; ac_crew : bool; ac_inserted : bool;
  ac_activity : Z; ac_minutes : Z }.

(** internal/dd/activity_change_info.go:27-57. *)
Definition unmarshal_activity_change (input : bytes) : res activity_change :=
  let* _ := guard (length input =? 2)%nat in
  let v := be input in
  let* slot := unmarshal_enum card_slot_number_table (v / 32768 mod 2) in
  let* act := unmarshal_enum driver_activity_value_table (v / 2048 mod 4) in
  Ok (mkAC (Some input) slot (v / 16384 mod 2 =? 1) (v / 8192 mod 2 =? 0) act (v mod 2048)).

(** internal/dd/activity_change_info.go:105-143.  The five bit fields are
    disjoint, so the Go [|=] is a sum. *)
Definition append_activity_change (ac : activity_change) : res bytes :=
  let* _ := raw_canvas 2 (ac_raw ac) in
  let* slot := marshal_enum card_slot_number_table (ac_slot ac) in
  let* act := marshal_enum driver_activity_value_table (ac_activity ac) in
  Ok (to_be 2 (slot mod 2 * 32768 + (if ac_crew ac then 16384 else 0) +
               (if ac_inserted ac then 0 else 8192) + act mod 4 * 2048 +
               u16 (ac_minutes ac) mod 2048)).

(** internal/dd/activity_change_info.go:66-87, AnonymizeActivityChangeInfo. *)
Definition anonymize_activity_change (ac : activity_change) (i : Z) : activity_change :=
  mkAC None (ac_slot ac) (ac_crew ac) (ac_inserted ac) (ac_activity ac) (Z.rem (i * 30) 1440).

(** ** SpecificConditionRecord *)

(** [sc_unrecognized] is unrecognized_specific_condition_type (0 when unset). *)
Record spec_cond := mkSC { sc_time : option timestamp; sc_type : Z; sc_unrecognized : Z }.

(** internal/dd/specific_condition_record.go:19-48. *)
Definition unmarshal_spec_cond (d : bytes) : res spec_cond :=
  let* _ := guard (length d =? 5)%nat in
  let* t := unmarshal_time (sub d 0 4) in
  let b := nth 4 d 0 in
  match unmarshal_enum specific_condition_type_table b with
  | Ok v => Ok (mkSC t v 0)
  | _ => Ok (mkSC t ENUM_UNRECOGNIZED b)
  end.

(** internal/dd/specific_condition_record.go:60-91. *)
Definition append_spec_cond (r : spec_cond) : res bytes :=
  let* t := append_time (sc_time r) in
  let* b := (if sc_type r =? ENUM_UNRECOGNIZED then Ok (u8 (sc_unrecognized r))
             else marshal_enum specific_condition_type_table (sc_type r)) in
  Ok (t ++ [b]).
