(** Text data types (internal/dd). *)

From Verif Require Import Base Enums DDScalar Utf8.

(** ** StringValue *)

Record string_value := mkSV {
  sv_raw : option bytes; sv_encoding : Z; sv_length : option Z; sv_value : bytes }.

(** internal/dd/string_value.go:142-173, getEncodingFromCodePage; numbers of
    enum Encoding (proto dd/v1/encoding.proto:21-66). *)
Definition encoding_of_code_page (cp : Z) : Z :=
  match cp with
  | 0 => 2 | 1 => 4 | 2 => 5 | 3 => 6 | 5 => 7 | 7 => 8 | 9 => 9 | 13 => 10
  | 15 => 11 | 16 => 12 | 80 => 13 | 85 => 14 | 255 => 3 | _ => 1
  end.

(** internal/dd/string_value.go:253-284, getCodePageFromEncoding. *)
Definition code_page_of_encoding (e : Z) : Z :=
  match e with
  | 2 => 0 | 4 => 1 | 5 => 2 | 6 => 3 | 7 => 5 | 8 => 7 | 9 => 9 | 10 => 13
  | 11 => 15 | 12 => 16 | 13 => 80 | 14 => 85 | _ => 255
  end.

(** The character maps of golang.org/x/text/encoding/charmap: code page and byte
    to rune.  Only ISO-8859-1 (code pages 0, 1 and every unknown one) is fixed;
    [cm] is arbitrary for the others. *)
Definition charmap_rune (cm : Z -> Z -> Z) (cp b : Z) : Z :=
  match cp with
  | 2 | 3 | 5 | 7 | 9 | 13 | 15 | 16 | 80 | 85 => cm cp b
  | _ => b
  end.

(** internal/dd/string_value.go:183-250, decodeWithCodePage.  The decoder never
    fails: every byte maps to a rune (U+FFFD if undefined). *)
Definition decode_with_code_page (cm : Z -> Z -> Z) (cp : Z) (data : bytes) : bytes :=
  if cp =? 255 then []
  else if negb (existsb (fun b => (0 <? b) && (b <? 255)) data) then []
  else make_valid (trim (concat (map (fun b => encode_rune (charmap_rune cm cp b)) data))).

Section WithCharmaps.
Variable cm : Z -> Z -> Z.

(** internal/dd/string_value.go:26-49, UnmarshalStringValue. *)
Definition unmarshal_string_value (input : bytes) : res string_value :=
  if (length input <? 2)%nat then Err EEOF
  else
    let cp := nth 0 input 0 in
    let data := skipn 1 input in
    Ok (mkSV (Some input) (encoding_of_code_page cp) (Some (Z.of_nat (length data)))
             (decode_with_code_page cm cp data)).

(** internal/dd/string_value.go:288-303, encodeWithCodePage: the UTF-8 bytes
    themselves. *)
Definition encode_with_code_page (cp : Z) (s : bytes) : bytes :=
  if cp =? 255 then [] else s.

Definition pad_spaces (n : nat) (s : bytes) : bytes := s ++ repeat 32 (n - length s).

(** internal/dd/string_value.go:65-139, AppendStringValue. *)
Definition append_string_value (o : option string_value) : res bytes :=
  match o with
  | None => Ok [255]
  | Some sv =>
      let raw := odflt [] (sv_raw sv) in
      let* _ := match sv_raw sv with
                | None => Ok tt
                | Some r =>
                    let* _ := guard (negb (length r <? 1)%nat) in
                    match sv_length sv with
                    | Some n => guard (Z.of_nat (length r) =? 1 + n)
                    | None => Ok tt
                    end
                end in
      let cp := code_page_of_encoding (sv_encoding sv) in
      if (0 <? length raw)%nat then Ok (set_byte raw 0 cp)
      else
        let enc := encode_with_code_page cp (sv_value sv) in
        match sv_length sv with
        | Some n =>
            if Z.of_nat (length enc) >? n then fail
            else Ok (cp :: pad_spaces (Z.to_nat n) enc)
        | None => Ok (cp :: enc)
        end
  end.

(** ** Ia5StringValue *)

Record ia5 := mkIA5 { ia5_raw : option bytes; ia5_length : option Z; ia5_value : bytes }.

(** internal/dd/ia5_string_value.go:20-42. *)
Definition unmarshal_ia5 (input : bytes) : res ia5 :=
  if (length input =? 0)%nat then Err EEOF
  else Ok (mkIA5 (Some input) (Some (Z.of_nat (length input))) (make_valid (trim input))).

(** internal/dd/ia5_string_value.go:56-97. *)
Definition append_ia5 (o : option ia5) : res bytes :=
  match o with
  | None => Ok []
  | Some s =>
      match ia5_length s with
      | None => fail
      | Some n =>
          match ia5_raw s with
          | Some r => if Z.of_nat (length r) =? n then Ok r else fail
          | None =>
              if Z.of_nat (length (ia5_value s)) >? n then fail
              else Ok (pad_spaces (Z.to_nat n) (ia5_value s))
          end
      end
  end.

(** ** VehicleRegistrationIdentification *)

Record vreg := mkVR { vr_nation : Z; vr_number : option string_value }.

(** internal/dd/vehicle_registration.go:23-48. *)
Definition unmarshal_vreg (d : bytes) : res vreg :=
  let* _ := guard (length d =? 15)%nat in
  let nation := match unmarshal_enum nation_numeric_table (nth 0 d 0) with
                | Ok n => n | _ => ENUM_UNRECOGNIZED end in
  let* num := unmarshal_string_value (sub d 1 14) in
  Ok (mkVR nation (Some num)).

(** internal/dd/vehicle_registration.go:64-95. *)
Definition append_vreg (o : option vreg) : res bytes :=
  match o with
  | None => fail
  | Some v =>
      let* n := (if vr_nation v =? ENUM_UNRECOGNIZED then fail
                 else marshal_enum nation_numeric_table (vr_nation v)) in
      let number := match vr_number v with
                    | Some s => s
                    | None => mkSV None 2 (Some 13) [] end in
      let* s := append_string_value (Some number) in
      Ok (n :: s)
  end.

(** ** HolderName *)

Record holder_name := mkHN {
  hn_surname : option string_value; hn_first_names : option string_value }.

(** internal/dd/holder_name.go:28-57. *)
Definition unmarshal_holder_name (d : bytes) : res holder_name :=
  let* _ := guard (length d =? 72)%nat in
  let* s := unmarshal_string_value (sub d 0 36) in
  let* f := unmarshal_string_value (sub d 36 36) in
  Ok (mkHN (Some s) (Some f)).

(** internal/dd/holder_name.go:78-98. *)
Definition append_holder_name (o : option holder_name) : res bytes :=
  match o with
  | None => fail
  | Some h =>
      let* s := append_string_value (hn_surname h) in
      let* f := append_string_value (hn_first_names h) in
      Ok (s ++ f)
  end.

End WithCharmaps.
