(** The anonymisers of lists, with messages whose lists may hold nil elements (see
    Nil).  A setter called on nil is a panic. *)

From Verif Require Import Base Chunks DDScalar DDString DDRecord CardRecords Nil Anonymize.

(** [for i, record := range records] with a body that may panic *)
Fixpoint mapi_res {A B} (f : Z -> A -> res B) (i : Z) (l : list A) : res (list B) :=
  match l with
  | [] => Ok []
  | a :: t => let* b := f i a in let* r := mapi_res f (i + 1) t in Ok (b :: r)
  end.

(** internal/card/places.go:193-203: of nil the first element gets its time set, the others
    have none. *)
Definition stamp_place_n (i : Z) (o : option place) : res (option place) :=
  match o with
  | None => if i =? 0 then Panic else Ok None
  | Some p => Ok (Some (stamp_place i p))
  end.

(** [b, err := append(nil, x); if err == nil { x.SetRawData(b) }] *)
Definition renew {A} (ap : option A -> res bytes) (set : bytes -> A -> A) (o : option A) : res (option A) :=
  match ap o with
  | Ok b => match o with None => Panic | Some a => Ok (Some (set b a)) end
  | Err _ => Ok o
  | Panic => Panic
  end.

(** The same for a file, which is not nil *)
Definition renew_file {A} (ap : A -> res bytes) (set : bytes -> A -> A) (a : A) : res A :=
  match ap a with Ok b => Ok (set b a) | Err _ => Ok a | Panic => Panic end.

(** internal/card/places.go:139-179; nil stays nil (internal/dd/place_record.go:149-151) *)
Definition anonymize_places_n (x : places_n) : res places_n :=
  let rs := map (option_map anonymize_place) (psn_records x) in
  let* rs := mapi_res stamp_place_n 0 rs in
  let* rs := map_res (renew append_place_n set_place_raw) rs in
  renew_file append_places_n (fun b p => mkPlacesN b (psn_newest p) (psn_records p)) (mkPlacesN [] (psn_newest x) rs).

(** internal/card/places_g2.go:195-215 *)
Definition stamp_place_g2_n (i : Z) (o : option place_g2) : res (option place_g2) :=
  match o with
  | None => if i =? 0 then Panic else Ok None
  | Some p => Ok (Some (stamp_place_g2 i p))
  end.

(** internal/card/places_g2.go:141-181; nil stays nil (internal/dd/place_record_g2.go:156-158) *)
Definition anonymize_places_g2_n (x : places_g2_n) : res places_g2_n :=
  let rs := map (option_map anonymize_place_g2) (ps2n_records x) in
  let* rs := mapi_res stamp_place_g2_n 0 rs in
  let* rs := map_res (renew append_place_g2_n set_place_g2_raw) rs in
  renew_file append_places_g2_n (fun b p => mkPlaces2N b (ps2n_newest p) (ps2n_records p)) (mkPlaces2N [] (ps2n_newest x) rs).

(** internal/card/vehicles_used.go:138-165; nil stays nil
    (internal/dd/card_vehicle_record.go:157-159) *)
Definition anonymize_vehicles_n (x : vehicles_n) : res vehicles_n :=
  renew_file append_vehicles_n (fun b v => mkVehN b (vsn_newest v) (vsn_records v))
    (mkVehN [] (vsn_newest x) (mapi (fun i => option_map (anonymize_vehicle i)) (vsn_records x))).
