(** The options of internal/dd and internal/card: the generation and version that
    unmarshalDriverCardFile hands to the reader of each file. DriverCard.v has the same loop
    without them. *)

From Verif Require Import Base Enums DDScalar RawTypes RawCard Infer CardBasic DriverCard.

(** generation.proto *)
Definition GENERATION_UNSPECIFIED : Z := 0.

(** version.proto *)
Definition VERSION_UNSPECIFIED : Z := 0.
Definition VERSION_1 : Z := 1.
Definition VERSION_2 : Z := 2.

(** dd/options.go:18-35 and card/options.go:20-24 *)
Record options := mkOptions { op_generation : Z; op_version : Z }.

(** dd/options.go:51-70 SetFromCardStructureVersion *)
Definition set_from_csv (v : csv) : options :=
  if csv_major v =? 0 then mkOptions GENERATION_1 VERSION_1
  else if csv_major v =? 1 then
    mkOptions GENERATION_2
      (if csv_minor v =? 0 then VERSION_1 else if csv_minor v =? 1 then VERSION_2 else VERSION_UNSPECIFIED)
  else mkOptions GENERATION_UNSPECIFIED VERSION_UNSPECIFIED.

(** What GetCardStructureVersion gives for the application identifications. *)
Definition structure_version (s : slot) : content s -> option csv :=
  match s return content s -> option csv with
  | S_app_id => fun x => ai_version x
  | S2_app_id => fun x => ai2_version x
  | _ => fun _ => None
  end.

(** The reader of a slot as a method of the options. Four of them copy the options for
    internal/dd (places.go:36-39, places_g2.go:37-40, vehicles_used.go:40-43,
    vehicles_used_g2.go:40-43); no function of either package reads one of the fields. *)
Definition unmarshal_content_with (cm : Z -> Z -> Z) (o : options) (s : slot) : bytes -> res (content s) :=
  unmarshal_content cm s.

(** The loop of driver_card_file.go:46-606 between two iterations: the card, the variable
    fileVersion, and for the record the options handed to the readers so far. *)
Record progress := mkProgress { pr_card : driver_card; pr_version : Z; pr_handed : list (slot * options) }.

(** One iteration; the version is set in lines 140-144 and 161-165. *)
Definition step_with (cm : Z -> Z -> Z) (p : progress) (r : raw_record) (sg : option bytes) : res progress :=
  let opts := mkOptions (rr_generation r) (pr_version p) in
  let* o := route (rr_file r) (rr_generation r) in
  match o with
  | None => Ok p
  | Some s =>
      let* v := unmarshal_content_with cm opts s (rr_value r) in
      let* _ := guard (negb (rejects_signature s && match sg with None => false | Some _ => true end)) in
      Ok (mkProgress (set_slot (pr_card p) s (v, sg))
            (match structure_version s v with Some c => op_version (set_from_csv c) | None => pr_version p end)
            (pr_handed p ++ [(s, opts)]))
  end.

(** driver_card_file.go:56-606 *)
Fixpoint unmarshal_records_with (cm : Z -> Z -> Z) (p : progress) (rs : list raw_record) {struct rs} : res progress :=
  match rs with
  | [] => Ok p
  | r :: rest =>
      let* _ := guard (rr_content r =? CONTENT_DATA) in
      match rest with
      | [] => step_with cm p r None
      | n :: rest' =>
          if (rr_file n =? rr_file r) && (rr_content n =? CONTENT_SIGNATURE)
          then let* p' := step_with cm p r (Some (rr_value n)) in unmarshal_records_with cm p' rest'
          else let* p' := step_with cm p r None in unmarshal_records_with cm p' rest
      end
  end.

(** driver_card_file.go:46-621: the version starts as VERSION_1 (line 49). *)
Definition unmarshal_driver_card_with (cm : Z -> Z -> Z) (rs : list raw_record) : res progress :=
  unmarshal_records_with cm (mkProgress empty_card VERSION_1 []) rs.
