(** The unit-test tables of internal/dd, run on the model.

    Each list below has the inputs and expected results of a table of the Go tests,
    in the same order.  These are checks of the model on fixed data, not properties
    of it. *)

From Coq Require Import String.
From Verif Require Import Base Enums DDScalar Utf8 DDString DDRecord Conf_Json Conf_Golden.
Local Open Scope string_scope.
Local Open Scope list_scope.
Local Open Scope Z_scope.

(** The result of a successful call; [None] stands for an error (wantErr). *)
Definition seen {A B} (f : A -> B) (r : res A) : option B :=
  match r with Ok a => Some (f a) | _ => None end.

(** Parse and write again. *)
Definition again {A} (parse : bytes -> res A) (write : option A -> res bytes) (d : bytes) : res bytes :=
  let* x := parse d in write (Some x).

(** bcd_string_test.go:10-91 *)
Example conf_unmarshal_bcd :
  map (fun d => seen (fun b => (bcd_value b, bcd_length b)) (unmarshal_bcd_string d))
    [ [0x12; 0x34]; [0x12; 0x34; 0x56]; [0x99]; [0x00]; [0x00; 0x42]; []; [0xab; 0xcd]; [0x12; 0xfa] ]
  = [ Some (1234, 2); Some (123456, 3); Some (99, 1); Some (0, 1); Some (42, 2); None; None; None ].
Proof. vm_compute. reflexivity. Qed.

(** bcd_string_test.go:93-186; a missing message gives no bytes. *)
Example conf_append_bcd :
  map (again unmarshal_bcd_string append_bcd_string)
    [ [0x12; 0x34]; [0x99]; [0x20; 0x25; 0x09; 0x30]; [0x42] ]
  = map Ok [ [0x12; 0x34]; [0x99]; [0x20; 0x25; 0x09; 0x30]; [0x42] ] /\
  append_bcd_string None = Ok [].
Proof. vm_compute. split; reflexivity. Qed.

(** bcd_string_test.go:188-281 *)
Example conf_append_bcd_length :
  map (fun p => seen (fun b => b) (append_bcd_string (Some (mkBcd (fst p) (snd p)))))
    [ (5, 1); (42, 1); (123, 2); (1234, 2); (42, 2); (0, 1); (9999, 2); (123, 1); (-5, 1); (42, 0) ]
  = [ Some [0x05]; Some [0x42]; Some [0x01; 0x23]; Some [0x12; 0x34]; Some [0x00; 0x42]; Some [0x00];
      Some [0x99; 0x99]; None; None; None ].
Proof. vm_compute. reflexivity. Qed.

(** controltype_test.go:8-121: card downloading, VU downloading, printing, display,
    calibration checking. *)
Example conf_unmarshal_control_type :
  map (fun d => seen (fun c => [ct_card_downloading c; ct_vu_downloading c; ct_printing c; ct_display c;
                                ct_calibration_checking c]) (unmarshal_control_type d))
    [ [0x80]; [0x40]; [0x20]; [0x10]; [0x08]; [0xF8]; [0x00]; [0xC0]; [0x18]; [] ]
  = [ Some [true; false; false; false; false]; Some [false; true; false; false; false];
      Some [false; false; true; false; false]; Some [false; false; false; true; false];
      Some [false; false; false; false; true]; Some [true; true; true; true; true];
      Some [false; false; false; false; false]; Some [true; true; false; false; false];
      Some [false; false; false; true; true]; None ].
Proof. vm_compute. reflexivity. Qed.

(** controltype_test.go:123-174 *)
Example conf_control_type_again :
  map (again unmarshal_control_type append_control_type) [ [0xF8]; [0x00]; [0x80]; [0xA8]; [0xFF] ]
  = map Ok [ [0xF8]; [0x00]; [0x80]; [0xA8]; [0xFF] ].
Proof. vm_compute. reflexivity. Qed.

(** date_test.go:10-152 *)
Example conf_unmarshal_date :
  map (fun d => seen (fun x => (date_year x, date_month x, date_day x, date_raw x)) (unmarshal_date d))
    [ [0x20; 0x25; 0x09; 0x30]; [0x20; 0x24; 0x01; 0x01]; [0x20; 0x23; 0x12; 0x31];
      [0x19; 0x99; 0x05; 0x15]; [0; 0; 0; 0]; [0x20; 0x25; 0x13; 0x01]; [0x20; 0x25; 0x01; 0x32];
      [0x20; 0x25; 0x00; 0x15]; [0x20; 0x25; 0x05; 0x00]; [0x18; 0x99; 0x12; 0x31]; [0x20; 0x25]; [] ]
  = [ Some (2025, 9, 30, Some [0x20; 0x25; 0x09; 0x30]); Some (2024, 1, 1, Some [0x20; 0x24; 0x01; 0x01]);
      Some (2023, 12, 31, Some [0x20; 0x23; 0x12; 0x31]); Some (1999, 5, 15, Some [0x19; 0x99; 0x05; 0x15]);
      Some (0, 0, 0, Some [0; 0; 0; 0]); Some (2025, 13, 1, Some [0x20; 0x25; 0x13; 0x01]);
      Some (2025, 1, 32, Some [0x20; 0x25; 0x01; 0x32]); Some (2025, 0, 15, Some [0x20; 0x25; 0x00; 0x15]);
      Some (2025, 5, 0, Some [0x20; 0x25; 0x05; 0x00]); Some (1899, 12, 31, Some [0x18; 0x99; 0x12; 0x31]);
      None; None ].
Proof. vm_compute. reflexivity. Qed.

(** date_test.go:154-265 *)
Example conf_append_date :
  map append_date
    [ Some (mkDate (Some [0x20; 0x25; 0x09; 0x30]) 2025 9 30); Some (mkDate None 2024 1 1);
      Some (mkDate None 2023 12 31); Some (mkDate None 1999 5 15); None ]
  = map Ok [ [0x20; 0x25; 0x09; 0x30]; [0x20; 0x24; 0x01; 0x01]; [0x20; 0x23; 0x12; 0x31];
             [0x19; 0x99; 0x05; 0x15]; [0; 0; 0; 0] ] /\
  map (again unmarshal_date append_date)
    [ [0x20; 0x25; 0x09; 0x30]; [0x20; 0x24; 0x01; 0x01]; [0x20; 0x23; 0x12; 0x31]; [0x19; 0x99; 0x05; 0x15] ]
  = map Ok [ [0x20; 0x25; 0x09; 0x30]; [0x20; 0x24; 0x01; 0x01]; [0x20; 0x23; 0x12; 0x31];
             [0x19; 0x99; 0x05; 0x15] ].
Proof. vm_compute. split; reflexivity. Qed.

(** equipment_type_test.go:10-205: names by value, and back. *)
Example conf_equipment_type :
  map (fun b => seen (name_of names_equipment_type) (unmarshal_enum equipment_type_table b))
    [0x01; 0x02; 0x03; 0x04; 0x06; 0x07; 0xFF; 0x00]
  = [ Some "DRIVER_CARD"; Some "WORKSHOP_CARD"; Some "CONTROL_CARD"; Some "COMPANY_CARD";
      Some "VEHICLE_UNIT"; Some "MOTION_SENSOR"; None; Some "RESERVED_MEMBER_STATE_OR_EUROPE" ] /\
  map (fun b => let* v := unmarshal_enum equipment_type_table b in marshal_enum equipment_type_table v)
    [0x01; 0x02; 0x03; 0x04; 0x06; 0x07; 0x00]
  = map Ok [0x01; 0x02; 0x03; 0x04; 0x06; 0x07; 0x00].
Proof. vm_compute. split; reflexivity. Qed.

(** extended_serial_number_test.go:10-114 *)
Example conf_unmarshal_ext_serial :
  map (fun d => seen (fun e => (es_serial e, option_map my_month (es_month_year e),
                                option_map my_year (es_month_year e),
                                name_of names_equipment_type (es_type e), es_manufacturer e))
                     (unmarshal_ext_serial d))
    [ [0x00; 0xBC; 0x61; 0x4E; 0x09; 0x25; 0x06; 0x0A]; [0; 0; 0; 1; 0x01; 0x24; 0x01; 0x05];
      [0; 0; 0; 0; 0x12; 0x23; 0x07; 0x0F]; [0xFF; 0xFF; 0xFF; 0xFF; 0x12; 0x99; 0x02; 0xFF];
      [0; 0; 0]; [] ]
  = [ Some (12345678, Some 9, Some 2025, "VEHICLE_UNIT", 10); Some (1, Some 1, Some 2024, "DRIVER_CARD", 5);
      Some (0, Some 12, Some 2023, "MOTION_SENSOR", 15);
      Some (4294967295, Some 12, Some 2099, "WORKSHOP_CARD", 255); None; None ].
Proof. vm_compute. reflexivity. Qed.

(** The number of an enum value, by name. *)
Definition number (T : names) (k : string) : Z :=
  match find (fun p => String.eqb (snd p) k) T with Some (v, _) => v | None => -1 end.

(** extended_serial_number_test.go:107-233 *)
Example conf_append_ext_serial :
  map (fun o => seen (fun b => b) (append_ext_serial o))
    [ Some (mkES 12345678 (Some (mkMY [0x09; 0x25] 9 2025)) (number names_equipment_type "VEHICLE_UNIT") 10);
      Some (mkES 1 (Some (mkMY [] 1 2024)) (number names_equipment_type "DRIVER_CARD") 5);
      None; Some (mkES 0 None (number names_equipment_type "EQUIPMENT_TYPE_UNSPECIFIED") 0) ]
  = [ Some [0x00; 0xBC; 0x61; 0x4E; 0x09; 0x25; 0x06; 0x0A]; Some [0; 0; 0; 1; 0x01; 0x24; 0x01; 0x05];
      None; None ] /\
  map (again unmarshal_ext_serial append_ext_serial)
    [ [0x00; 0xBC; 0x61; 0x4E; 0x09; 0x25; 0x06; 0x0A]; [0; 0; 0; 1; 0x01; 0x24; 0x01; 0x05];
      [0; 0; 0; 0; 0; 0; 0; 0]; [0xFF; 0xFF; 0xFF; 0xFF; 0x12; 0x99; 0x07; 0xFF] ]
  = map Ok [ [0x00; 0xBC; 0x61; 0x4E; 0x09; 0x25; 0x06; 0x0A]; [0; 0; 0; 1; 0x01; 0x24; 0x01; 0x05];
             [0; 0; 0; 0; 0; 0; 0; 0]; [0xFF; 0xFF; 0xFF; 0xFF; 0x12; 0x99; 0x07; 0xFF] ].
Proof. vm_compute. split; reflexivity. Qed.

(** month_year_test.go:11-127 *)
Example conf_unmarshal_month_year :
  map (fun d => seen (fun m => (my_month m, my_year m, my_raw m)) (unmarshal_month_year d))
    [ [0x01; 0x25]; [0x12; 0x24]; [0x09; 0x23]; [0x06; 0x00]; [0x12; 0x99]; [0x02; 0x20]; [0x10; 0x15];
      [0x00; 0x00]; [0x01]; []; [0xAB; 0xCD] ]
  = [ Some (1, 2025, [0x01; 0x25]); Some (12, 2024, [0x12; 0x24]); Some (9, 2023, [0x09; 0x23]);
      Some (6, 2000, [0x06; 0x00]); Some (12, 2099, [0x12; 0x99]); Some (2, 2020, [0x02; 0x20]);
      Some (10, 2015, [0x10; 0x15]); Some (0, 0, [0x00; 0x00]); None; None; Some (0, 0, [0xAB; 0xCD]) ].
Proof. vm_compute. reflexivity. Qed.

(** month_year_test.go:129-325 *)
Example conf_append_month_year :
  map append_month_year
    [ Some (mkMY [] 1 2025); Some (mkMY [] 12 2024); Some (mkMY [] 9 2023); Some (mkMY [] 6 2000);
      Some (mkMY [] 12 2099); Some (mkMY [] 10 2015); Some (mkMY [0x03; 0x22] 3 2022); None;
      Some (mkMY [] 0 0); Some (mkMY [] 6 2023) ]
  = map Ok [ [0x01; 0x25]; [0x12; 0x24]; [0x09; 0x23]; [0x06; 0x00]; [0x12; 0x99]; [0x10; 0x15];
             [0x03; 0x22]; [0x00; 0x00]; [0x00; 0x00]; [0x06; 0x23] ] /\
  map (again unmarshal_month_year append_month_year)
    [ [0x01; 0x25]; [0x12; 0x24]; [0x09; 0x23]; [0x06; 0x00]; [0x12; 0x99]; [0x00; 0x00] ]
  = map Ok [ [0x01; 0x25]; [0x12; 0x24]; [0x09; 0x23]; [0x06; 0x00]; [0x12; 0x99]; [0x00; 0x00] ].
Proof. vm_compute. split; reflexivity. Qed.

(** odometer_test.go:9-183 *)
Example conf_odometer :
  map (fun d => seen (fun v => v) (unmarshal_odometer d))
    [ [0x0F; 0x42; 0x3F]; [0; 0; 0]; [0x01; 0xE2; 0x40]; [0; 0; 1]; [0; 0; 0xFF]; [0; 0xFF; 0xFF];
      [0x01; 0xE2; 0x40; 0xFF; 0xFF]; [0x01; 0x02]; [0x01]; [] ]
  = [ Some 999999; Some 0; Some 123456; Some 1; Some 255; Some 65535; None; None; None; None ] /\
  map append_odometer [999999; 0; 123456; 1; 255; 65535]
  = [ [0x0F; 0x42; 0x3F]; [0; 0; 0]; [0x01; 0xE2; 0x40]; [0; 0; 1]; [0; 0; 0xFF]; [0; 0xFF; 0xFF] ].
Proof. vm_compute. split; reflexivity. Qed.

(** time_real_test.go:11-187 *)
Example conf_time :
  map (fun d => seen (option_map ts_seconds) (unmarshal_time d))
    [ [0x68; 0xDB; 0xAA; 0x20]; [0x65; 0x92; 0x00; 0x80]; [0; 0; 0; 1]; [0; 0; 0; 0];
      [0x7F; 0xFF; 0xFF; 0xFF]; [0x80; 0; 0; 0]; [0x68; 0xDB; 0xAA]; [] ]
  = [ Some (Some 1759226400); Some (Some 1704067200); Some (Some 1); Some None; Some (Some 2147483647);
      Some (Some 2147483648); None; None ] /\
  map append_time [ Some (mkTs 1759226400 0); Some (mkTs 1704067200 0); Some (mkTs 1 0); None;
                    Some (mkTs 2147483647 0) ]
  = map Ok [ [0x68; 0xDB; 0xAA; 0x20]; [0x65; 0x92; 0x00; 0x80]; [0; 0; 0; 1]; [0; 0; 0; 0];
             [0x7F; 0xFF; 0xFF; 0xFF] ].
Proof. vm_compute. split; reflexivity. Qed.

(** The characters of ISO-8859-2 that the tests use; ASCII in the other maps. *)
Definition test_charmap (cp b : Z) : Z :=
  match cp, b with
  | 2, 0xB1 => 0x105 | 2, 0xE6 => 0x107 | 2, 0xEA => 0x119 | 2, 0xB3 => 0x142 | 2, 0xF1 => 0x144
  | _, _ => if b <? 128 then b else 0xFFFD
  end.

(** string_value_test.go:11-104; the bytes of the third text are its UTF-8 form. *)
Example conf_unmarshal_string_value :
  map (fun d => seen (fun s => (name_of names_encoding (sv_encoding s), sv_raw s, sv_value s))
                     (unmarshal_string_value test_charmap d))
    [ [0x01; 0x4A; 0x6F; 0x68; 0x6E]; [0x00; 0x48; 0x65; 0x6C; 0x6C; 0x6F];
      [0x02; 0xB1; 0xE6; 0xEA; 0xB3; 0xF1]; [0xFF; 0; 0; 0]; [0x0F; 0x45; 0x75; 0x72; 0x6F]; [0x01]; [] ]
  = [ Some ("ISO_8859_1", Some [0x01; 0x4A; 0x6F; 0x68; 0x6E], untext "John");
      Some ("ENCODING_DEFAULT", Some [0x00; 0x48; 0x65; 0x6C; 0x6C; 0x6F], untext "Hello");
      Some ("ISO_8859_2", Some [0x02; 0xB1; 0xE6; 0xEA; 0xB3; 0xF1],
            [0xC4; 0x85; 0xC4; 0x87; 0xC4; 0x99; 0xC5; 0x82; 0xC5; 0x84]);
      Some ("ENCODING_EMPTY", Some [0xFF; 0; 0; 0], []);
      Some ("ISO_8859_15", Some [0x0F; 0x45; 0x75; 0x72; 0x6F], untext "Euro"); None; None ].
Proof. vm_compute. reflexivity. Qed.

(** string_value_test.go:106-193 *)
Example conf_unmarshal_ia5 :
  map (fun d => seen (fun s => (ia5_raw s, ia5_value s)) (unmarshal_ia5 d))
    [ untext "Hello"; untext "Test    "; [0x41; 0x42; 0x43; 0; 0]; [0x54; 0x65; 0x73; 0x74; 0x20; 0; 0xFF];
      untext "FPA-829       "; untext "      "; [] ]
  = [ Some (Some (untext "Hello"), untext "Hello"); Some (Some (untext "Test    "), untext "Test");
      Some (Some [0x41; 0x42; 0x43; 0; 0], untext "ABC");
      Some (Some [0x54; 0x65; 0x73; 0x74; 0x20; 0; 0xFF], untext "Test");
      Some (Some (untext "FPA-829       "), untext "FPA-829"); Some (Some (untext "      "), []); None ].
Proof. vm_compute. reflexivity. Qed.

(** string_value_test.go:195-287 *)
Example conf_append_string_value :
  map append_string_value
    [ Some (mkSV (Some [0x01; 0x4A; 0x6F; 0x68; 0x6E]) (number names_encoding "ISO_8859_1") (Some 4)
                 (untext "John"));
      Some (mkSV None (number names_encoding "ENCODING_DEFAULT") None (untext "Hello"));
      Some (mkSV None (number names_encoding "ENCODING_DEFAULT") None []);
      Some (mkSV None (number names_encoding "ENCODING_EMPTY") None []); None;
      Some (mkSV None (number names_encoding "ISO_8859_15") None (untext "Test"));
      Some (mkSV (Some [0x01; 0x41; 0x42; 0x43]) (number names_encoding "ISO_8859_1") (Some 3)
                 (untext "XYZ")) ]
  = map Ok [ [0x01; 0x4A; 0x6F; 0x68; 0x6E]; [0x00; 0x48; 0x65; 0x6C; 0x6C; 0x6F]; [0x00]; [0xFF]; [0xFF];
             [0x0F; 0x54; 0x65; 0x73; 0x74]; [0x01; 0x41; 0x42; 0x43] ].
Proof. vm_compute. reflexivity. Qed.

(** string_value_test.go:289-379, 485-509 *)
Example conf_append_ia5 :
  map (fun o => seen (fun b => b) (append_ia5 o))
    [ Some (mkIA5 None (Some 10) (untext "ABC"));
      Some (mkIA5 (Some [0x41; 0x42; 0x43; 0x20; 0x20]) (Some 5) (untext "XYZ"));
      Some (mkIA5 (Some [0x41; 0x42]) (Some 10) (untext "Test")); None;
      Some (mkIA5 None (Some 10) (untext "1234567890")); Some (mkIA5 None (Some 3) []);
      Some (mkIA5 None (Some 10) (untext "Test")) ]
  = [ Some (untext "ABC       "); Some (untext "ABC  "); None; Some []; Some (untext "1234567890");
      Some (untext "   "); Some (untext "Test      ") ].
Proof. vm_compute. reflexivity. Qed.

(** string_value_test.go:381-483 *)
Example conf_texts_again :
  map (again (unmarshal_string_value test_charmap) append_string_value)
    [ [0x01; 0x4A; 0x6F; 0x68; 0x6E; 0x20; 0x44; 0x6F; 0x65];
      [0x00; 0x48; 0x65; 0x6C; 0x6C; 0x6F; 0x20; 0x57; 0x6F; 0x72; 0x6C; 0x64];
      [0x02; 0xB1; 0xE6; 0xEA; 0xB3; 0xF1]; [0xFF; 0; 0]; [0x0F; 0x54; 0x65; 0x73; 0x74] ]
  = map Ok
    [ [0x01; 0x4A; 0x6F; 0x68; 0x6E; 0x20; 0x44; 0x6F; 0x65];
      [0x00; 0x48; 0x65; 0x6C; 0x6C; 0x6F; 0x20; 0x57; 0x6F; 0x72; 0x6C; 0x64];
      [0x02; 0xB1; 0xE6; 0xEA; 0xB3; 0xF1]; [0xFF; 0; 0]; [0x0F; 0x54; 0x65; 0x73; 0x74] ] /\
  map (again unmarshal_ia5 append_ia5)
    [ untext "Hello     "; untext "FPA-829       "; untext "1234567890"; untext "     " ]
  = map Ok [ untext "Hello     "; untext "FPA-829       "; untext "1234567890"; untext "     " ].
Proof. vm_compute. split; reflexivity. Qed.

(** A registration of the tests: nation byte, code page and the number in 13 bytes. *)
Definition plate (nation cp : Z) (s : string) : bytes := nation :: cp :: pad_spaces 13 (untext s).

(** vehicle_registration_test.go:11-121 *)
Example conf_unmarshal_vreg :
  map (fun d => seen (fun v => (name_of names_nation_numeric (vr_nation v), option_map sv_value (vr_number v)))
                     (unmarshal_vreg test_charmap d))
    [ plate 0x12 0x0F "FPA-829"; plate 0x0F 0x0F "ABC-1234"; plate 0x0D 0 "B-MW-1234"; plate 0x11 0 "75ABC12";
      plate 0x1A 0 "AB123CD"; plate 0x2C 0 "ABC1234567890"; plate 0xFF 0xFF ""; plate 0 0 "ABC";
      plate 0x64 0 "TEST"; firstn 14 (plate 0x12 0x0F "FPA-829");
      [0x12; 0x46; 0x50; 0x41; 0x2D; 0x38; 0x32; 0x39; 0x20; 0x20]; [] ]
  = [ Some ("FINLAND", Some (untext "FPA-829")); Some ("SPAIN", Some (untext "ABC-1234"));
      Some ("GERMANY", Some (untext "B-MW-1234")); Some ("FRANCE", Some (untext "75ABC12"));
      Some ("ITALY", Some (untext "AB123CD")); Some ("SWEDEN", Some (untext "ABC1234567890"));
      Some ("NATION_NUMERIC_EMPTY", Some []); Some ("NATION_NUMERIC_DEFAULT", Some (untext "ABC"));
      Some ("NATION_NUMERIC_UNRECOGNIZED", Some (untext "TEST")); None; None; None ].
Proof. vm_compute. reflexivity. Qed.

(** vehicle_registration_test.go:123-286 *)
Example conf_append_vreg :
  map (fun o => seen (fun b => b) (append_vreg o))
    (map (fun p => match p with (nation, encoding, s) =>
            Some (mkVR (number names_nation_numeric nation)
                       (Some (mkSV None (number names_encoding encoding) (Some 13) (untext s)))) end)
      [ ("FINLAND", "ISO_8859_15", "FPA-829"); ("SPAIN", "ISO_8859_15", "ABC-1234");
        ("GERMANY", "ENCODING_DEFAULT", "ABC"); ("ITALY", "ENCODING_EMPTY", "");
        ("NATION_NUMERIC_EMPTY", "ENCODING_DEFAULT", "TEST");
        ("NATION_NUMERIC_UNSPECIFIED", "ENCODING_DEFAULT", "ABC");
        ("NATION_NUMERIC_UNRECOGNIZED", "ENCODING_DEFAULT", "TEST");
        ("SWEDEN", "ENCODING_DEFAULT", "ABC123") ]
     ++ [ Some (mkVR (number names_nation_numeric "FRANCE") None); None ])
  = [ Some (plate 0x12 0x0F "FPA-829"); Some (plate 0x0F 0x0F "ABC-1234"); Some (plate 0x0D 0 "ABC");
      Some (plate 0x1A 0xFF ""); Some (plate 0xFF 0 "TEST"); None; None; Some (plate 0x2C 0 "ABC123");
      Some (plate 0x11 0 ""); None ].
Proof. vm_compute. reflexivity. Qed.

(** vehicle_registration_test.go:288-367 *)
Example conf_vreg_again :
  let inputs :=
    [ plate 0x12 0x0F "FPA-829"; plate 0x0F 0x0F "ABC-1234"; plate 0x0D 0 "B-MW-1234"; plate 0x11 0 "75ABC12";
      plate 0x1A 0 "ABC1234567890"; plate 0x2C 0 "ABC"; plate 0xFF 0xFF ""; plate 0 0 "TEST" ] in
  map (again (unmarshal_vreg test_charmap) append_vreg) inputs = map Ok inputs.
Proof. vm_compute. reflexivity. Qed.
