(** Raw card files: internal/card/rawcardfile.go. *)

From Verif Require Import Base Chunks Scanner RawTypes.

(** rawcardfile.go:47-76 scanCardFile *)
Definition scan_card_file : split_func :=
  fun data eof =>
    if (length data <? 5)%nat then
      if eof then
        if (length data =? 0)%nat then SMore else SErr EEOF
      else SMore
    else
      let total := (5 + Z.to_nat (be (sub data 3 2)))%nat in
      if (length data <? total)%nat then
        if eof then SErr EEOF else SMore
      else STok total.

(** rawcardfile.go:79-118 unmarshalRawCardFileRecord.  [5+length] is computed in
    uint16 (line 90). *)
Definition unmarshal_raw_record (input : bytes) : res raw_record :=
  let fid := be (sub input 0 2) in
  let appendix := nth 2 input 0 in
  let len := be (sub input 3 2) in
  let* v := slice input 5 (Z.to_nat (u16 (5 + len))) in
  Ok (mkRR (Z.lor (Z.shiftl fid 8) appendix) (map_fid fid)
        (if negb (Z.land appendix 2 =? 0) then GENERATION_2 else GENERATION_1)
        (if negb (Z.land appendix 1 =? 0) then CONTENT_SIGNATURE else CONTENT_DATA)
        len (pad_copy (Z.to_nat len) v)).

(** rawcardfile.go:14-29 UnmarshalRawCardFile.  Records are decoded as the tokens
    appear, the scanner's error is looked at afterwards; each value is a copy. *)
Definition unmarshal_raw_card_file (input : bytes) : res (list raw_record) :=
  match scan scan_card_file input with
  | (ts, r, _) =>
      let* rs := map_res unmarshal_raw_record (map tok_bytes ts) in
      let* _ := r in
      Ok rs
  end.

(** rawcardfile.go:32-44 MarshalRawCardFile.  The tag is an int32: [>>8] is
    arithmetic, then truncated to uint16. *)
Definition append_raw_record (r : raw_record) : bytes :=
  to_be 2 (u16 (Z.shiftr (rr_tag r) 8)) ++ [u8 (Z.land (rr_tag r) 255)] ++
  to_be 2 (u16 (rr_length r)) ++ rr_value r.

Definition marshal_raw_card_file (rs : list raw_record) : res bytes :=
  Ok (flat_map append_raw_record rs).
