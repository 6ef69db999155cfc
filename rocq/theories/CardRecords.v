(** Card files made of fixed-size records (internal/card). *)

From Verif Require Import Base Enums DDScalar Utf8 DDString DDRecord Chunks Scanner.

(** ** EF Events_Data and EF Faults_Data *)

(** EventsData.Record and FaultsData.Record have the same shape. *)
Record event := mkEv {
  ev_valid : bool; ev_raw : bytes; ev_type : Z;
  ev_begin : option timestamp; ev_end : option timestamp; ev_vehicle : option vreg }.

(** The decoded registration keeps a slice of the scanner's buffer as raw data of
    its number; after scanning the slice shows [raw]. *)
Definition alias_vreg (v : vreg) (raw : bytes) : vreg :=
  mkVR (vr_nation v)
    (option_map (fun s => mkSV (Some raw) (sv_encoding s) (sv_length s) (sv_value s)) (vr_number v)).

Section WithCharmaps.
Variable cm : Z -> Z -> Z.

(** internal/card/events.go:51-72, 95-155 and faults.go:52-71, 96-155, one round
    of the loop.  [now] is what the scanner shows, [fin] what the same slice shows
    once scanning has finished. *)
Definition unmarshal_event (p : bytes * bytes) : res event :=
  let now := fst p in let fin := snd p in
  if be (sub now 1 4) =? 0 then Ok (mkEv false fin 0 None None None)
  else
    let* _ := guard (negb (length now <? 24)%nat) in
    let* t := unmarshal_enum event_fault_type_table (nth 0 now 0) in
    let* b := unmarshal_time (sub now 1 4) in
    let* e := unmarshal_time (sub now 5 4) in
    let* v := unmarshal_vreg cm (sub now 9 15) in
    Ok (mkEv true [] t b e (Some (alias_vreg v (sub fin 10 14)))).

(** events.go:46-81 and faults.go:46-82 *)
Definition unmarshal_events (d : bytes) : res (list event) :=
  let* l := scan_fixed 24 d in map_res unmarshal_event l.

(** events.go:196-221 and faults.go:196-221 *)
Definition append_event (r : event) : res bytes :=
  if negb (ev_valid r) then Ok (ev_raw r)
  else
    let* b := append_time (ev_begin r) in
    let* e := append_time (ev_end r) in
    let* v := append_vreg (ev_vehicle r) in
    Ok ([marshal_enum_or_zero event_fault_type_table (ev_type r)] ++ b ++ e ++ v).

(** events.go:171-182 and faults.go:171-182; a nil message has no records. *)
Definition append_events (o : option (list event)) : res bytes := concat_res append_event (odflt [] o).

(** ** EF Places *)

(** Common to the files with a pointer to the newest record: on raw data of the
    expected length the records are painted over it, otherwise they are
    concatenated after the pointer. *)
Definition append_pointer_file {A} (ap : A -> res bytes) (size : nat) (pointer raw : bytes) (rs : list A)
  : res bytes :=
  let h := length pointer in
  if (length raw =? h + length rs * size)%nat
  then paint_records ap size (copy_into raw 0 h pointer) h rs
  else let* b := concat_res ap rs in Ok (pointer ++ b).

Record places := mkPlaces { ps_raw : bytes; ps_newest : Z; ps_records : list place }.

(** internal/card/places.go:18-73.  A record that failed to parse would be kept as
    raw bytes; ten bytes never fail. *)
Definition unmarshal_places (d : bytes) : res places :=
  let* _ := guard (negb (length d <? 1)%nat) in
  Ok (mkPlaces d (nth 0 d 0)
        (map (fun c => match unmarshal_place c with
                       | Ok p => p
                       | _ => mkPlace c None 0 None 0 None [] 0 end)
             (chunks 10 (skipn 1 d)))).

(** places.go:80-129 *)
Definition append_places (o : option places) : res bytes :=
  match o with
  | None => Ok []
  | Some p => append_pointer_file append_place 10 [u8 (ps_newest p)] (ps_raw p) (ps_records p)
  end.

Record places_g2 := mkPlaces2 { ps2_raw : bytes; ps2_newest : Z; ps2_records : list place_g2 }.

(** internal/card/places_g2.go:19-74 *)
Definition unmarshal_places_g2 (d : bytes) : res places_g2 :=
  let* _ := guard (negb (length d <? 2)%nat) in
  Ok (mkPlaces2 d (be (sub d 0 2))
        (map (fun c => match unmarshal_place_g2 c with
                       | Ok p => p
                       | _ => mkPlace2 c None 0 None 0 None [] 0 None end)
             (chunks 21 (skipn 2 d)))).

(** places_g2.go:81-130 *)
Definition append_places_g2 (o : option places_g2) : res bytes :=
  match o with
  | None => Ok []
  | Some p =>
      append_pointer_file append_place_g2 21 (to_be 2 (u16 (ps2_newest p))) (ps2_raw p) (ps2_records p)
  end.

(** ** EF Vehicles_Used *)

Record vehicles := mkVeh { vs_raw : bytes; vs_newest : Z; vs_records : list card_vehicle }.

(** internal/card/vehicles_used.go:15-74 *)
Definition unmarshal_vehicles (d : bytes) : res vehicles :=
  let* _ := guard (negb (length d <? 2)%nat) in
  let* rs := map_res (unmarshal_card_vehicle cm) (chunks 31 (skipn 2 d)) in
  Ok (mkVeh d (be (sub d 0 2)) rs).

(** vehicles_used.go:77-126 *)
Definition append_vehicles (o : option vehicles) : res bytes :=
  match o with
  | None => Ok []
  | Some x => append_pointer_file append_card_vehicle 31 (to_be 2 (u16 (vs_newest x))) (vs_raw x) (vs_records x)
  end.

Record vehicles_g2 := mkVeh2 { vs2_raw : bytes; vs2_newest : Z; vs2_records : list card_vehicle_g2 }.

(** internal/card/vehicles_used_g2.go:15-74 *)
Definition unmarshal_vehicles_g2 (d : bytes) : res vehicles_g2 :=
  let* _ := guard (negb (length d <? 2)%nat) in
  let* rs := map_res (unmarshal_card_vehicle_g2 cm) (chunks 48 (skipn 2 d)) in
  Ok (mkVeh2 d (be (sub d 0 2)) rs).

(** vehicles_used_g2.go:77-126 *)
Definition append_vehicles_g2 (o : option vehicles_g2) : res bytes :=
  match o with
  | None => Ok []
  | Some x =>
      append_pointer_file append_card_vehicle_g2 48 (to_be 2 (u16 (vs2_newest x))) (vs2_raw x) (vs2_records x)
  end.

End WithCharmaps.

(** ** EF GNSS_Places (GNSSAccumulatedDriving) *)

Record gnss_record := mkGR { gr_time : option timestamp; gr_place : option gnss_place; gr_odometer : Z }.

Record gnss_places := mkGPs { gps_newest : Z; gps_records : list gnss_record }.

(** internal/card/gnss_places.go:111-148 *)
Definition unmarshal_gnss_record (d : bytes) : res gnss_record :=
  let* _ := guard (length d =? 18)%nat in
  let* t := unmarshal_time (sub d 0 4) in
  let* p := unmarshal_gnss_place (sub d 4 11) in
  let* o := unmarshal_odometer (sub d 15 3) in
  Ok (mkGR t (Some p) o).

(** gnss_places.go:37-104.  Nothing decoded refers to the scanner's buffer. *)
Definition unmarshal_gnss_places (d : bytes) : res gnss_places :=
  let* _ := guard (negb (length d <? 2)%nat) in
  let* _ := guard ((length d - 2) mod 18 =? 0)%nat in
  let* l := scan_fixed 18 (skipn 2 d) in
  let* rs := map_res (fun p => unmarshal_gnss_record (fst p)) l in
  Ok (mkGPs (be (sub d 0 2)) rs).

(** gnss_places.go:201-227 *)
Definition append_gnss_record (r : gnss_record) : res bytes :=
  let* t := append_time (gr_time r) in
  let* p := append_gnss_place (gr_place r) in
  let* _ := guard (negb ((gr_odometer r <? 0) || (gr_odometer r >? 999999))) in
  Ok (t ++ p ++ append_odometer (gr_odometer r)).

(** gnss_places.go:172-193 *)
Definition append_gnss_places (o : option gnss_places) : res bytes :=
  match o with
  | None => Ok []
  | Some x =>
      let* b := concat_res append_gnss_record (gps_records x) in
      Ok (to_be 2 (u16 (gps_newest x)) ++ b)
  end.

(** ** EF Vehicle_Units_Used *)

Record unit_record := mkUR {
  ur_time : option timestamp; ur_manufacturer : Z; ur_device : bytes; ur_version : bytes }.

Record units_used := mkUU { uu_newest : Z; uu_records : list unit_record }.

(** internal/card/vehicle_units_used.go:115-147; the two byte fields are slices of
    the scanner's buffer, showing [fin] in the end. *)
Definition unmarshal_unit_record (p : bytes * bytes) : res unit_record :=
  let now := fst p in let fin := snd p in
  let* _ := guard (length now =? 10)%nat in
  let* t := unmarshal_time (sub now 0 4) in
  Ok (mkUR t (nth 4 now 0) (sub fin 5 1) (sub fin 6 4)).

(** vehicle_units_used.go:39-106 *)
Definition unmarshal_units_used (d : bytes) : res units_used :=
  let* _ := guard (negb (length d <? 2)%nat) in
  let* _ := guard ((length d - 2) mod 10 =? 0)%nat in
  let* l := scan_fixed 10 (skipn 2 d) in
  let* rs := map_res unmarshal_unit_record l in
  Ok (mkUU (be (sub d 0 2)) rs).

(** vehicle_units_used.go:202-247 *)
Definition append_unit_record (r : unit_record) : res bytes :=
  let* t := append_time (ur_time r) in
  let* _ := guard (negb ((ur_manufacturer r <? 0) || (ur_manufacturer r >? 255))) in
  let* _ := guard (negb (1 <? length (ur_device r))%nat) in
  let* _ := guard (negb (4 <? length (ur_version r))%nat) in
  Ok (t ++ [u8 (ur_manufacturer r)] ++ pad_copy 1 (ur_device r) ++ pad_copy 4 (ur_version r)).

(** vehicle_units_used.go:172-193 *)
Definition append_units_used (o : option units_used) : res bytes :=
  match o with
  | None => Ok []
  | Some x =>
      let* b := concat_res append_unit_record (uu_records x) in
      Ok (to_be 2 (u16 (uu_newest x)) ++ b)
  end.

(** ** EF Specific_Conditions *)

(** The parse loops stop at the first record that fails. *)
Fixpoint collect_ok {A B} (f : A -> res B) (l : list A) : list B :=
  match l with
  | [] => []
  | a :: t => match f a with Ok b => b :: collect_ok f t | _ => [] end
  end.

Record conditions := mkCond { co_raw : bytes; co_records : list spec_cond }.

(** internal/card/specific_conditions.go:22-52 *)
Definition unmarshal_conditions (d : bytes) : res conditions :=
  if (length d =? 0)%nat then Ok (mkCond [] [])
  else Ok (mkCond d (collect_ok unmarshal_spec_cond (chunks 5 d))).

(** specific_conditions.go:64-107 *)
Definition append_conditions (o : option conditions) : res bytes :=
  match o with
  | None => Ok []
  | Some x => append_pointer_file append_spec_cond 5 [] (co_raw x) (co_records x)
  end.

Record conditions_g2 := mkCond2 { co2_raw : bytes; co2_newest : Z; co2_records : list spec_cond }.

(** internal/card/specific_conditions_g2.go:23-58 *)
Definition unmarshal_conditions_g2 (d : bytes) : res conditions_g2 :=
  let* _ := guard (negb (length d <? 2)%nat) in
  Ok (mkCond2 d (be (sub d 0 2)) (collect_ok unmarshal_spec_cond (chunks 5 (skipn 2 d)))).

(** The painting loop of specific_conditions_g2.go:93-110: [None] is the jump to
    the fallback when a record does not fit. *)
Fixpoint paint_fit (c : bytes) (off : nat) (l : list spec_cond) : res (option bytes) :=
  match l with
  | [] => Ok (Some c)
  | r :: t =>
      if (length c <? off + 5)%nat then Ok None
      else
        let* b := append_spec_cond r in
        let* _ := guard (length b =? 5)%nat in
        paint_fit (copy_into c off (off + 5) b) (off + 5) t
  end.

(** specific_conditions_g2.go:70-126 *)
Definition append_conditions_g2 (o : option conditions_g2) : res bytes :=
  match o with
  | None => Ok []
  | Some x =>
      let pointer := to_be 2 (u16 (co2_newest x)) in
      let* painted :=
        (if (0 <? length (co2_raw x))%nat then
           let* _ := slice (co2_raw x) 0 2 in   (* canvas[0:2] *)
           paint_fit (copy_into (co2_raw x) 0 2 pointer) 2 (co2_records x)
         else Ok None) in
      match painted with
      | Some c => Ok c
      | None => let* b := concat_res append_spec_cond (co2_records x) in Ok (pointer ++ b)
      end
  end.
