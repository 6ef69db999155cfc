(** EF Driver_Activity_Data (internal/card/activity.go). *)

From Verif Require Import Base Enums DDScalar Chunks.

(** DriverActivityData.DailyRecord.  [day_raw] is set for records that could not be
    read. *)
Record day := mkDay {
  day_valid : bool; day_raw : bytes; day_prev : Z; day_len : Z; day_date : option timestamp;
  day_counter : option bcd_string; day_distance : Z; day_changes : list activity_change }.

Record activity := mkAct { act_oldest : Z; act_newest : Z; act_raw : bytes; act_days : list day }.

(** ** Walking the ring *)

(** internal/card/activity.go:312-315: the [n] bytes from position [p], wrapping around. *)
Definition cyc (buf : bytes) (p n : nat) : bytes :=
  map (fun i => nth ((p + i) mod length buf) buf 0) (seq 0 n).

(** internal/card/activity.go:285-333, Next, iterated by the loop of lines 87-113:
    the record bytes from the newest record backwards.  [left] is 366 minus
    recordCount; the position is -1 after the last record. *)
Fixpoint ring_walk (left : nat) (buf : bytes) (pos : Z) : res (list bytes) :=
  match left with
  | O => fail
  | S left' =>
      let n := Z.of_nat (length buf) in
      if n =? 0 then Ok []
      else if (pos <? 0) || (n <? pos + 4) then Ok []
      else
        let p := Z.to_nat pos in
        let prev := be (sub buf p 2) in
        let cur := be (sub buf (p + 2) 2) in
        if cur =? 0 then Ok []
        else if cur <? 4 then fail
        else
          let r := cyc buf p (Z.to_nat cur) in
          let pos' := if prev =? 0 then -1
                      else let q := pos - prev in if q <? 0 then q + n else q in
          let* t := ring_walk left' buf pos' in
          Ok (r :: t)
  end.

Definition max_days : nat := 366.

(** ** Daily records *)

(** activity.go:178-196: two-byte entries; 0x0000 and 0xFFFF are skipped, a last
    odd byte is ignored. *)
Fixpoint parse_changes (d : bytes) : res (list activity_change) :=
  match d with
  | b0 :: b1 :: t =>
      let v := be [b0; b1] in
      if (v =? 0) || (v =? 65535) then parse_changes t
      else
        let* c := unmarshal_activity_change [b0; b1] in
        let* cs := parse_changes t in
        Ok (c :: cs)
  | _ => Ok []
  end.

(** activity.go:127-205 parseSingleActivityDailyRecord (the raw data set on line 201 is
    not copied to the result by the caller). *)
Definition parse_day (d : bytes) : res day :=
  let* _ := guard (negb (length d <? 12)%nat) in
  let* t := unmarshal_time (sub d 4 4) in
  let* c := unmarshal_bcd_string (sub d 8 2) in
  let* cs := parse_changes (skipn 12 d) in
  Ok (mkDay true [] (be (sub d 0 2)) (be (sub d 2 2)) t (Some c) (be (sub d 10 2)) cs).

(** activity.go:91-110 *)
Definition day_of (d : bytes) : day :=
  match parse_day d with
  | Ok r => r
  | _ => mkDay false d 0 0 None None 0 []
  end.

(** activity.go:83-124 parseActivityRecordsWithIterator *)
Definition parse_days (buf : bytes) (start : Z) : res (list day) :=
  let* rs := ring_walk max_days buf start in
  Ok (rev (map day_of rs)).

(** activity.go:36-78.  bytes.Reader.Read reports EOF when nothing is left (a
    file of exactly four bytes). *)
Definition unmarshal_activity (d : bytes) : res activity :=
  let* _ := guard (negb (length d <? 4)%nat) in
  let oldest := be (sub d 0 2) in
  let newest := be (sub d 2 2) in
  let buf := skipn 4 d in
  if (length buf =? 0)%nat then Err EEOF
  else
    let* ds := parse_days buf newest in
    Ok (mkAct oldest newest buf ds).

(** ** Writing *)

(** activity.go:443-462 calculateRecordSize *)
Definition day_size (r : day) : Z :=
  if 0 <? day_len r then day_len r else 12 + 2 * Z.of_nat (length (day_changes r)).

(** activity.go:383-400 *)
Definition record_size (r : day) : res nat :=
  if day_valid r then Ok (Z.to_nat (day_size r))
  else if (0 <? length (day_raw r))%nat then Ok (length (day_raw r)) else fail.

(** activity.go:466-503 marshalRecordWithHeader *)
Definition marshal_day (r : day) (prev cur : nat) : res bytes :=
  let* t := append_time (day_date r) in
  let* c := append_bcd_string (day_counter r) in
  let* cs := concat_res append_activity_change (day_changes r) in
  let b := to_be 2 (Z.of_nat prev) ++ to_be 2 (Z.of_nat cur) ++ t ++ c ++ to_be 2 (day_distance r) ++ cs in
  Ok (b ++ zeros (cur - length b)).

(** activity.go:412-435: the second pass. *)
Fixpoint write_days (buf : bytes) (pos prev : nat) (rs : list day) : res bytes :=
  match rs with
  | [] => Ok buf
  | r :: t =>
      let* n := record_size r in
      let* b := if day_valid r then marshal_day r prev n else Ok (day_raw r) in
      write_days (copy_into buf pos (length buf) b) (pos + n) n t
  end.

(** activity.go:374-438 buildCyclicBufferFromRecords *)
Definition build_ring (rs : list day) : res bytes :=
  let* sizes := map_res record_size rs in
  write_days (zeros (list_sum sizes)) 0 0 rs.

(** activity.go:229-252 appendDriverActivity *)
Definition append_activity (o : option activity) : res bytes :=
  match o with
  | None => Ok []
  | Some a =>
      let* buf := if (0 <? length (act_raw a))%nat then Ok (act_raw a) else build_ring (act_days a) in
      Ok (to_be 2 (act_oldest a) ++ to_be 2 (act_newest a) ++ buf)
  end.
