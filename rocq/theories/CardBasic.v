(** Card files of fixed size (internal/card).  Signatures are kept beside the
    messages in DriverCard.v. *)

From Verif Require Import Base Enums DDScalar Utf8 DDString DDRecord RawTypes Infer.

(** ** EF IC *)

Record ic := mkIc { ic_serial : bytes; ic_references : bytes }.

(** internal/card/ic.go:20-49 *)
Definition unmarshal_ic (d : bytes) : res ic :=
  let* _ := guard (negb (length d <? 8)%nat) in
  Ok (mkIc (sub d 0 4) (sub d 4 4)).

(** ic.go:61-94: each field is cut or zero-padded to four bytes. *)
Definition append_ic (o : option ic) : res bytes :=
  match o with
  | None => Ok []
  | Some x => Ok (pad_copy 4 (ic_serial x) ++ pad_copy 4 (ic_references x))
  end.

(** ** EF ICC *)

Record embedder := mkEmb { em_country : option ia5; em_module : option ia5; em_manufacturer : Z }.

Record icc := mkIcc {
  icc_clock_stop : Z; icc_serial : option ext_serial; icc_approval : option ia5;
  icc_personaliser : Z; icc_embedder : option embedder; icc_ic_identifier : bytes }.

(** internal/card/icc.go:28-150.  The length checks inside are implied by the
    first one. *)
Definition unmarshal_icc (d : bytes) : res icc :=
  let* _ := guard (negb (length d <? 25)%nat) in
  let* cs := unmarshal_enum clock_stop_mode_table (nth 0 d 0) in
  let s := sub d 1 8 in
  let* my := unmarshal_month_year (sub s 4 2) in
  let* t := unmarshal_enum equipment_type_table (nth 6 s 0) in
  let esn := mkES (be (sub s 0 4)) (Some my) t (nth 7 s 0) in
  let* ap := unmarshal_ia5 (sub d 9 8) in
  let e := sub d 18 5 in
  let* cc := unmarshal_ia5 (sub e 0 2) in
  let* me := unmarshal_ia5 (sub e 2 2) in
  Ok (mkIcc cs (Some esn) (Some ap) (nth 17 d 0)
        (Some (mkEmb (Some cc) (Some me) (nth 4 e 0))) (sub d 23 2)).

(** icc.go:211-236 appendEmbedderIcAssemblerId *)
Definition append_embedder (o : option embedder) : res bytes :=
  match o with
  | None => Ok (zeros 5)
  | Some e =>
      let* c := append_ia5 (em_country e) in
      let* m := append_ia5 (em_module e) in
      Ok (c ++ m ++ [u8 (em_manufacturer e)])
  end.

(** icc.go:166-208; a nil message reads as zero values. *)
Definition append_icc (o : option icc) : res bytes :=
  let x := odflt (mkIcc 0 None None 0 None []) o in
  let* cs := marshal_enum clock_stop_mode_table (icc_clock_stop x) in
  let* s := append_ext_serial_as_string (icc_serial x) 8 in
  let* a := append_ia5 (icc_approval x) in
  let* e := append_embedder (icc_embedder x) in
  Ok ([cs] ++ s ++ a ++ [u8 (icc_personaliser x)] ++ e ++ icc_ic_identifier x).

(** ** EF Card_Download *)

(** internal/card/card_download.go:18-37: the message is its timestamp. *)
Definition unmarshal_card_download (d : bytes) : res (option timestamp) :=
  let* _ := guard (negb (length d <? 4)%nat) in
  unmarshal_time (sub d 0 4).

(** card_download.go:46-59 (outer option: the message itself). *)
Definition append_card_download (o : option (option timestamp)) : res bytes :=
  match o with
  | None => Ok []
  | Some t => append_time t
  end.

(** ** EF Current_Usage *)

Record current_usage := mkCU { cu_time : option timestamp; cu_vehicle : option vreg }.

(** internal/card/current_usage.go:21-54 *)
Definition unmarshal_current_usage (cm : Z -> Z -> Z) (d : bytes) : res current_usage :=
  let* _ := guard (negb (length d <? 19)%nat) in
  let* t := unmarshal_time (sub d 0 4) in
  let* v := unmarshal_vreg cm (sub d 4 15) in
  Ok (mkCU t (Some v)).

(** current_usage.go:66-91 *)
Definition append_current_usage (o : option current_usage) : res bytes :=
  match o with
  | None => Ok []
  | Some x =>
      let* t := append_time (cu_time x) in
      let* v := match cu_vehicle x with
                | Some v => append_vreg (Some v)
                | None => Ok (zeros 15)
                end in
      Ok (t ++ v)
  end.

(** ** EF Driving_Licence_Info *)

Record driving_licence := mkDL {
  dl_authority : option string_value; dl_nation : Z; dl_number : option ia5 }.

(** internal/card/driving_licence.go:24-70 *)
Definition unmarshal_driving_licence (cm : Z -> Z -> Z) (d : bytes) : res driving_licence :=
  let* _ := guard (negb (length d <? 53)%nat) in
  let* a := unmarshal_string_value cm (sub d 0 36) in
  let n := match unmarshal_enum nation_numeric_table (nth 36 d 0) with
           | Ok n => n | _ => ENUM_UNRECOGNIZED end in
  let* i := unmarshal_ia5 (sub d 37 16) in
  Ok (mkDL (Some a) n (Some i)).

(** driving_licence.go:83-103 *)
Definition append_driving_licence (o : option driving_licence) : res bytes :=
  match o with
  | None => Ok []
  | Some x =>
      let* a := append_string_value (dl_authority x) in
      let* n := marshal_enum nation_numeric_table (dl_nation x) in
      let* i := append_ia5 (dl_number x) in
      Ok (a ++ [n] ++ i)
  end.

(** ** EF Control_Activity_Data *)

Record control_activity := mkCA {
  ca_valid : bool; ca_raw : bytes; ca_type : option control_type;
  ca_time : option timestamp; ca_card : option card_number_gen; ca_vehicle : option vreg;
  ca_begin : option timestamp; ca_end : option timestamp }.

(** internal/card/control_activity.go:27-131 *)
Definition unmarshal_control_activity (cm : Z -> Z -> Z) (d : bytes) : res control_activity :=
  let* _ := guard (negb (length d <? 46)%nat) in
  if be (sub d 1 4) =? 0
  then Ok (mkCA false d None None None None None None)
  else
    let* ct := unmarshal_control_type (sub d 0 1) in
    let* t := unmarshal_time (sub d 1 4) in
    let* n := unmarshal_ia5 (sub d 5 18) in
    let card := mkCNG (Some (mkFCN EQ_DRIVER_CARD 0 (Some (mkDI (Some n))) None)) GENERATION_1 in
    let* v := unmarshal_vreg cm (sub d 23 15) in
    let* b := unmarshal_time (sub d 38 4) in
    let* e := unmarshal_time (sub d 42 4) in
    Ok (mkCA true [] (Some ct) t (Some card) (Some v) b e).

(** control_activity.go:164-190: only the five flags are written. *)
Definition control_type_byte (o : option control_type) : Z :=
  match o with
  | None => 0
  | Some c =>
      or_flag (ct_calibration_checking c) 8
        (or_flag (ct_display c) 16
          (or_flag (ct_printing c) 32
            (or_flag (ct_vu_downloading c) 64
              (or_flag (ct_card_downloading c) 128 0))))
  end.

(** control_activity.go:147-225 *)
Definition append_control_activity (o : option control_activity) : res bytes :=
  match o with
  | None => Ok []
  | Some x =>
      if negb (ca_valid x) then
        if negb (length (ca_raw x) =? 46)%nat then Ok (zeros 46) else Ok (ca_raw x)
      else
        let* t := append_time (ca_time x) in
        let fcn := match ca_card x with Some g => cng_number g | None => None end in
        let* n := append_full_card_number_as_string fcn in
        let* v := append_vreg (ca_vehicle x) in
        let* b := append_time (ca_begin x) in
        let* e := append_time (ca_end x) in
        Ok ([control_type_byte (ca_type x)] ++ t ++ n ++ v ++ b ++ e)
  end.

(** ** EF Application_Identification (first generation) *)

(** [HasX() ? byte(GetX()) : 0] and its two-byte variant. *)
Definition opt_byte (o : option Z) : bytes := [u8 (odflt 0 o)].
Definition opt_u16 (o : option Z) : bytes := to_be 2 (u16 (odflt 0 o)).

Record app_driver := mkAD {
  ad_events : option Z; ad_faults : option Z; ad_activity_length : option Z;
  ad_vehicles : option Z; ad_places : option Z }.

Record app_id := mkAI {
  ai_type : option Z; ai_version : option csv; ai_card_type : Z; ai_driver : option app_driver }.

(** internal/card/application_identification.go:29-108 *)
Definition unmarshal_app_id (d : bytes) : res app_id :=
  let* _ := guard (length d =? 10)%nat in
  let* t := unmarshal_enum equipment_type_table (nth 0 d 0) in
  let* v := unmarshal_csv (sub d 1 2) in
  Ok (mkAI (Some t) (Some v) DRIVER_CARD
        (Some (mkAD (Some (nth 3 d 0)) (Some (nth 4 d 0)) (Some (be (sub d 5 2)))
                    (Some (be (sub d 7 2))) (Some (nth 9 d 0))))).

(** application_identification.go:126-205 *)
Definition append_app_id (o : option app_id) : res bytes :=
  match o with
  | None => Ok []
  | Some x =>
      let t := match ai_type x with
               | Some t => marshal_enum_or_zero equipment_type_table t | None => 0 end in
      let* v := match ai_version x with
                | Some v => append_csv (Some v)
                | None => Ok [0; 1]
                end in
      let drv := if ai_card_type x =? DRIVER_CARD then ai_driver x else None in
      let body := match drv with
                  | None => zeros 7
                  | Some a => opt_byte (ad_events a) ++ opt_byte (ad_faults a) ++
                              opt_u16 (ad_activity_length a) ++ opt_u16 (ad_vehicles a) ++
                              opt_byte (ad_places a)
                  end in
      Ok ([t] ++ v ++ body)
  end.

(** ** EF Application_Identification (second generation) *)

Record app_driver_g2 := mkAD2 {
  ad2_events : option Z; ad2_faults : option Z; ad2_activity_length : option Z;
  ad2_vehicles : option Z; ad2_places : option Z; ad2_gnss : option Z;
  ad2_conditions : option Z; ad2_units : option Z }.

Record app_id_g2 := mkAI2 {
  ai2_type : option Z; ai2_version : option csv; ai2_card_type : Z;
  ai2_driver : option app_driver_g2 }.

(** internal/card/application_identification_g2.go:32-134 *)
Definition unmarshal_app_id_g2 (d : bytes) : res app_id_g2 :=
  let* _ := guard (length d =? 17)%nat in
  let* t := unmarshal_enum equipment_type_table (nth 0 d 0) in
  let* v := unmarshal_csv (sub d 1 2) in
  Ok (mkAI2 (Some t) (Some v) DRIVER_CARD
        (Some (mkAD2 (Some (nth 3 d 0)) (Some (nth 4 d 0)) (Some (be (sub d 5 2)))
                     (Some (be (sub d 7 2))) (Some (be (sub d 9 2))) (Some (be (sub d 11 2)))
                     (Some (be (sub d 13 2))) (Some (be (sub d 15 2)))))).

(** application_identification_g2.go:154-264 *)
Definition append_app_id_g2 (o : option app_id_g2) : res bytes :=
  match o with
  | None => Ok []
  | Some x =>
      let t := match ai2_type x with
               | Some t => marshal_enum_or_zero equipment_type_table t | None => 0 end in
      let* v := match ai2_version x with
                | Some v => append_csv (Some v)
                | None => Ok [0; 1]
                end in
      let drv := if ai2_card_type x =? DRIVER_CARD then ai2_driver x else None in
      let body := match drv with
                  | None => zeros 14
                  | Some a => opt_byte (ad2_events a) ++ opt_byte (ad2_faults a) ++
                              opt_u16 (ad2_activity_length a) ++ opt_u16 (ad2_vehicles a) ++
                              opt_u16 (ad2_places a) ++ opt_u16 (ad2_gnss a) ++
                              opt_u16 (ad2_conditions a) ++ opt_u16 (ad2_units a)
                  end in
      Ok ([t] ++ v ++ body)
  end.

(** ** EF Application_Identification_V2 *)

(** The four counts a sub-message carries (border crossings, load/unload, load
    types, configuration range); the company and control variants have only the
    last one, modelled as [0; 0; 0; n]. *)
Record app_v2_counts := mkV2C { v2_border : Z; v2_load : Z; v2_load_type : Z; v2_config : Z }.

Record app_id_v2 := mkAV2 {
  av2_card_type : Z; av2_driver : option app_v2_counts; av2_workshop : option app_v2_counts;
  av2_company : option Z; av2_control : option Z }.

(** internal/card/application_identification_v2.go:23-70 *)
Definition unmarshal_app_id_v2 (d : bytes) : res app_id_v2 :=
  let* _ := guard (negb (length d <? 4)%nat) in
  Ok (mkAV2 DRIVER_CARD (Some (mkV2C (nth 0 d 0) (nth 1 d 0) (nth 2 d 0) (nth 3 d 0)))
        None None None).

(** application_identification_v2.go:84-130 *)
Definition append_app_id_v2 (o : option app_id_v2) : res bytes :=
  match o with
  | None => Ok []
  | Some x =>
      let z := mkV2C 0 0 0 0 in
      let c :=
        if av2_card_type x =? DRIVER_CARD then odflt z (av2_driver x)
        else if av2_card_type x =? WORKSHOP_CARD then odflt z (av2_workshop x)
        else if av2_card_type x =? COMPANY_CARD then mkV2C 0 0 0 (odflt 0 (av2_company x))
        else if av2_card_type x =? CONTROL_CARD then mkV2C 0 0 0 (odflt 0 (av2_control x))
        else z in
      Ok [u8 (v2_border c); u8 (v2_load c); u8 (v2_load_type c); u8 (v2_config c)]
  end.
