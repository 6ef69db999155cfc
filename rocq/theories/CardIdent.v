(** EF Identification (internal/card/identification.go). *)

From Verif Require Import Base Enums DDScalar Utf8 DDString DDRecord.

(** DriverIdentification with its indices (proto
    dd/v1/driver_identification.proto); [driver_id] of DDRecord.v is the same
    message where the indices stay unset. *)
Record driver_number := mkDN {
  dn_number : option ia5; dn_replacement : option ia5; dn_renewal : option ia5 }.

(** driver_identification and owner_identification of Identification.Card: the
    parser sets one of the two fields, and the writer looks at the driver first. *)
Inductive card_number := CN_none | CN_driver (x : driver_number) | CN_owner (x : owner_id).

Record ident_card := mkIC {
  id_nation : Z; id_number : card_number; id_authority : option string_value;
  id_issue : option timestamp; id_begin : option timestamp; id_expiry : option timestamp }.

Record ident_holder := mkIH {
  ih_surname : option string_value; ih_first_names : option string_value;
  ih_birth : option date; ih_language : option ia5 }.

Record identification := mkIdent {
  ident_type : Z; ident_card_part : option ident_card; ident_holder_part : option ident_holder }.

(** proto card/v1/card_type.proto *)
Definition CARD_TYPE_DRIVER : Z := 1.
Definition CARD_TYPE_WORKSHOP : Z := 2.

Definition digitb (b : Z) : bool := (48 <=? b) && (b <=? 57).

(** internal/card/identification.go:80-180: the card number.  The first branch
    of the code (an error of the 14-byte text) cannot be taken, and its body is the
    one of the second. *)
Definition unmarshal_card_number (n : bytes) : res (Z * card_number) :=
  let owner :=
    let* o := unmarshal_ia5 (sub n 0 13) in
    let* c := unmarshal_ia5 (sub n 13 1) in
    let* r := unmarshal_ia5 (sub n 14 1) in
    let* w := unmarshal_ia5 (sub n 15 1) in
    Ok (CARD_TYPE_WORKSHOP, CN_owner (mkOI (Some o) (Some c) (Some r) (Some w))) in
  match unmarshal_ia5 (sub n 0 14) with
  | Ok i =>
      if digitb (nth 14 n 0) && digitb (nth 15 n 0)
      then
        let r := match unmarshal_ia5 (sub n 14 1) with Ok v => Some v | _ => None end in
        let w := match unmarshal_ia5 (sub n 15 1) with Ok v => Some v | _ => None end in
        Ok (CARD_TYPE_DRIVER, CN_driver (mkDN (Some i) r w))
      else owner
  | _ => owner
  end.

(** internal/card/identification.go:44-278 *)
Definition unmarshal_identification (cm : Z -> Z -> Z) (d : bytes) : res identification :=
  let* _ := guard (negb (length d <? 143)%nat) in
  let nation := match unmarshal_enum nation_numeric_table (nth 0 d 0) with
                | Ok n => n | _ => ENUM_UNRECOGNIZED end in
  let* tn := unmarshal_card_number (sub d 1 16) in
  let* a := unmarshal_string_value cm (sub d 17 36) in
  let* i := unmarshal_time (sub d 53 4) in
  let* b := unmarshal_time (sub d 57 4) in
  let* e := unmarshal_time (sub d 61 4) in
  let* s := unmarshal_string_value cm (sub d 65 36) in
  let* f := unmarshal_string_value cm (sub d 101 36) in
  let* bd := unmarshal_date (sub d 137 4) in
  let* l := unmarshal_ia5 (sub d 141 2) in
  Ok (mkIdent (fst tn) (Some (mkIC nation (snd tn) (Some a) i b e))
              (Some (mkIH (Some s) (Some f) (Some bd) (Some l)))).

(** identification.go:328-342: the identifier, cut or padded to [n] bytes; the
    canvas keeps its zeros when there is none. *)
Definition number_bytes (n : nat) (o : option ia5) : bytes :=
  match o with
  | None => zeros n
  | Some s => pad_spaces n (firstn n (ia5_value s))
  end.

(** The first byte of an index, or [dflt]. *)
Definition index_byte (dflt : Z) (o : option ia5) : Z :=
  match o with
  | Some s => hd dflt (ia5_value s)
  | None => dflt
  end.

(** identification.go:327-396 *)
Definition append_card_number (c : card_number) : bytes :=
  match c with
  | CN_none => zeros 16
  | CN_driver x =>
      number_bytes 14 (dn_number x) ++ [index_byte 48 (dn_replacement x); index_byte 48 (dn_renewal x)]
  | CN_owner x =>
      number_bytes 13 (oi_number x) ++
      [index_byte 0 (oi_consecutive x); index_byte 0 (oi_replacement x); index_byte 0 (oi_renewal x)]
  end.

(** identification.go:294-417 *)
Definition append_card_identification (o : option ident_card) : res bytes :=
  match o with
  | None => Ok []
  | Some x =>
      let* n := (if id_nation x =? ENUM_UNRECOGNIZED then fail
                 else marshal_enum nation_numeric_table (id_nation x)) in
      let* a := append_string_value (id_authority x) in
      let* i := append_time (id_issue x) in
      let* b := append_time (id_begin x) in
      let* e := append_time (id_expiry x) in
      Ok ([n] ++ append_card_number (id_number x) ++ a ++ i ++ b ++ e)
  end.

(** identification.go:431-463 *)
Definition append_holder_identification (o : option ident_holder) : res bytes :=
  match o with
  | None => Ok []
  | Some h =>
      let* s := append_string_value (ih_surname h) in
      let* f := append_string_value (ih_first_names h) in
      let* b := match ih_birth h with
                | Some x => append_date (Some x)
                | None => Ok (zeros 4)
                end in
      let* l := append_ia5 (ih_language h) in
      Ok (s ++ f ++ b ++ l)
  end.

(** internal/card/driver_card_file.go:651-668: the EF is written as the card part
    followed by the holder part.  (Getters of a nil message return nil parts.) *)
Definition append_identification (o : option identification) : res bytes :=
  match o with
  | None => Ok []
  | Some x =>
      let* c := append_card_identification (ident_card_part x) in
      let* h := append_holder_identification (ident_holder_part x) in
      Ok (c ++ h)
  end.
