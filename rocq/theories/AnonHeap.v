(** The anonymisers of files (internal/card and internal/dd, functions Anonymize…) on a
    heap: a message is an object with its scalar fields and pointers to the messages below
    it, so that messages can share others.  Anonymize.v has the same functions on values.

    Simplified: byte slices are values (the anonymisers make new ones), the objects of
    a message below nil or of another type than the field wants are not followed (Go's
    types exclude the latter), and nil records, on which two of the functions panic
    (NilAnonymize.v), are passed over. *)

From Coq Require Import String.
From Verif Require Import Base DDScalar DDString DDRecord CardRecords CardIdent Anonymize.
Local Open Scope list_scope.

(** The scalar fields of the messages, with their type. *)
Inductive payload :=
| DTime (t : timestamp) | DStr (s : string_value) | DIa5 (s : ia5) | DBcd (b : bcd_string)
| DGeo (g : geo) | DDate (d : date)
| DGnss (accuracy : Z)
| DPlace (raw : bytes) (entry : Z) (entry_u : option Z) (country : Z) (country_u : option Z) (region : bytes) (odo : Z)
| DPlace2 (raw : bytes) (entry : Z) (entry_u : option Z) (country : Z) (country_u : option Z) (region : bytes) (odo : Z)
| DReg (nation : Z)
| DVehicle (raw : bytes) (odo_begin odo_end : Z)
| DPlaces (raw : bytes) (newest : Z) | DPlaces2 (raw : bytes) (newest : Z) | DVehicles (raw : bytes) (newest : Z)
| DDriver | DOwner | DCard (nation : Z) | DHolder | DBody | DCompany
| DIdent (type : Z) (signature : option bytes) (verified : bool).

(** A pointer; [None] is nil. *)
Definition ref := option nat.

Record obj := mkObj { data : payload; refs : list ref }.

Definition heap := list obj.

Definition fetch (h : heap) (r : ref) : option obj :=
  match r with Some a => nth_error h a | None => None end.

(** [&T{}] *)
Definition new (o : obj) (h : heap) : ref * heap := (Some (length h), h ++ [o]).

(** Setters of the message behind [r] *)
Definition store (r : ref) (o : obj) (h : heap) : heap :=
  match r with Some a => firstn a h ++ o :: skipn (S a) h | None => h end.

(** ** What a message is worth *)

Inductive tree := Tree (d : payload) (ts : list (option tree)).

Fixpoint every {A} (l : list (option A)) : option (list A) :=
  match l with
  | [] => Some []
  | o :: t => match o, every t with Some a, Some r => Some (a :: r) | _, _ => None end
  end.

(** The message behind a pointer, with those below it to the depth [f]; [None] if there is
    a pointer to nowhere or too many levels. *)
Fixpoint read (f : nat) (h : heap) (r : ref) : option (option tree) :=
  match r with
  | None => Some None
  | Some a =>
      match f with
      | O => None
      | S f =>
          match nth_error h a with
          | None => None
          | Some o => option_map (fun ts => Some (Tree (data o) ts)) (every (map (read f h) (refs o)))
          end
      end
  end.

Definition obind {A B} (o : option A) (f : A -> option B) : option B :=
  match o with Some a => f a | None => None end.

(** An optional sub-message *)
Definition opt {A} (f : tree -> option A) (o : option tree) : option (option A) :=
  match o with None => Some None | Some t => option_map Some (f t) end.

Definition time_of (t : tree) : option timestamp := match t with Tree (DTime t) [] => Some t | _ => None end.
Definition str_of (t : tree) : option string_value := match t with Tree (DStr s) [] => Some s | _ => None end.
Definition ia5_of (t : tree) : option ia5 := match t with Tree (DIa5 s) [] => Some s | _ => None end.
Definition bcd_of (t : tree) : option bcd_string := match t with Tree (DBcd b) [] => Some b | _ => None end.
Definition geo_of (t : tree) : option geo := match t with Tree (DGeo g) [] => Some g | _ => None end.
Definition date_of (t : tree) : option date := match t with Tree (DDate d) [] => Some d | _ => None end.

Definition gnss_of (t : tree) : option gnss_place :=
  match t with
  | Tree (DGnss acc) [t; g] =>
      obind (opt time_of t) (fun t => obind (opt geo_of g) (fun g => Some (mkGP t acc g)))
  | _ => None
  end.

Definition place_of (t : tree) : option place :=
  match t with
  | Tree (DPlace raw e eu c cu rg od) [t] => obind (opt time_of t) (fun t => Some (mkPlace raw t e eu c cu rg od))
  | _ => None
  end.

Definition place2_of (t : tree) : option place_g2 :=
  match t with
  | Tree (DPlace2 raw e eu c cu rg od) [t; g] =>
      obind (opt time_of t) (fun t => obind (opt gnss_of g) (fun g => Some (mkPlace2 raw t e eu c cu rg od g)))
  | _ => None
  end.

Definition reg_of (t : tree) : option vreg :=
  match t with
  | Tree (DReg n) [s] => obind (opt str_of s) (fun s => Some (mkVR n s))
  | _ => None
  end.

Definition vehicle_of (t : tree) : option card_vehicle :=
  match t with
  | Tree (DVehicle raw ob oe) [f; l; v; c] =>
      obind (opt time_of f) (fun f => obind (opt time_of l) (fun l =>
      obind (opt reg_of v) (fun v => obind (opt bcd_of c) (fun c => Some (mkCV raw ob oe f l v c)))))
  | _ => None
  end.

(** A list has no nil elements here. *)
Definition some {A} (f : tree -> option A) (o : option tree) : option A := obind o f.

Definition places_of (t : tree) : option places :=
  match t with
  | Tree (DPlaces raw n) ts => option_map (mkPlaces raw n) (every (map (some place_of) ts))
  | _ => None
  end.

Definition places2_of (t : tree) : option places_g2 :=
  match t with
  | Tree (DPlaces2 raw n) ts => option_map (mkPlaces2 raw n) (every (map (some place2_of) ts))
  | _ => None
  end.

Definition vehicles_of (t : tree) : option vehicles :=
  match t with
  | Tree (DVehicles raw n) ts => option_map (mkVeh raw n) (every (map (some vehicle_of) ts))
  | _ => None
  end.

Definition driver_of (t : tree) : option driver_number :=
  match t with
  | Tree DDriver [a; b; c] =>
      obind (opt ia5_of a) (fun a => obind (opt ia5_of b) (fun b => obind (opt ia5_of c) (fun c => Some (mkDN a b c))))
  | _ => None
  end.

Definition owner_of (t : tree) : option owner_id :=
  match t with
  | Tree DOwner [a; b; c; d] =>
      obind (opt ia5_of a) (fun a => obind (opt ia5_of b) (fun b =>
      obind (opt ia5_of c) (fun c => obind (opt ia5_of d) (fun d => Some (mkOI a b c d)))))
  | _ => None
  end.

Definition card_of (t : tree) : option full_card :=
  match t with
  | Tree (DCard n) [d; o; a; i; b; e] =>
      obind (opt driver_of d) (fun d => obind (opt owner_of o) (fun o => obind (opt str_of a) (fun a =>
      obind (opt time_of i) (fun i => obind (opt time_of b) (fun b => obind (opt time_of e) (fun e =>
      Some (mkFC n d o a i b e)))))))
  | _ => None
  end.

Definition holder_of (t : tree) : option ident_holder :=
  match t with
  | Tree DHolder [s; f; b; l] =>
      obind (opt str_of s) (fun s => obind (opt str_of f) (fun f => obind (opt date_of b) (fun b =>
      obind (opt ia5_of l) (fun l => Some (mkIH s f b l)))))
  | _ => None
  end.

Definition body_of (t : tree) : option body_holder :=
  match t with
  | Tree DBody [n; a; s; f; l] =>
      obind (opt str_of n) (fun n => obind (opt str_of a) (fun a => obind (opt str_of s) (fun s =>
      obind (opt str_of f) (fun f => obind (opt str_of l) (fun l => Some (mkBH n a s f l))))))
  | _ => None
  end.

Definition company_of (t : tree) : option company_holder :=
  match t with
  | Tree DCompany [n; a; l] =>
      obind (opt str_of n) (fun n => obind (opt str_of a) (fun a => obind (opt str_of l) (fun l => Some (mkCH n a l))))
  | _ => None
  end.

Definition ident_of (t : tree) : option full_ident :=
  match t with
  | Tree (DIdent ty s v) [c; d; w; k; m] =>
      obind (opt card_of c) (fun c => obind (opt holder_of d) (fun d => obind (opt body_of w) (fun w =>
      obind (opt body_of k) (fun k => obind (opt company_of m) (fun m => Some (mkFI ty c d w k m s v))))))
  | _ => None
  end.

(** The record or file behind a pointer *)
Definition value {A} (f : tree -> option A) (depth : nat) (h : heap) (r : ref) : option A :=
  obind (read depth h r) (some f).

Definition place_at := value place_of 3.
Definition place2_at := value place2_of 3.
Definition vehicle_at := value vehicle_of 3.
Definition places_at := value places_of 4.
Definition places2_at := value places2_of 4.
Definition vehicles_at := value vehicles_of 4.
Definition ident_at := value ident_of 4.

(** ** Loops *)

(** [for i, r := range rs { out = append(out, f(r, i)) }] *)
Fixpoint collect (f : Z -> ref -> heap -> ref * heap) (i : Z) (rs : list ref) (h : heap) : list ref * heap :=
  match rs with
  | [] => ([], h)
  | r :: t => let (r', h) := f i r h in let (t', h) := collect f (i + 1) t h in (r' :: t', h)
  end.

(** [for i, r := range rs { f(r, i) }] *)
Fixpoint each (f : Z -> ref -> heap -> heap) (i : Z) (rs : list ref) (h : heap) : heap :=
  match rs with
  | [] => h
  | r :: t => each f (i + 1) t (f i r h)
  end.

(** [if b, err := append(nil, x); err == nil { x.SetRawData(b) }] *)
Definition renew_at {A} (at_ : heap -> ref -> option A) (ap : A -> res bytes) (set : bytes -> payload -> payload)
    (r : ref) (h : heap) : heap :=
  match at_ h r, fetch h r with
  | Some a, Some o => match ap a with Ok b => store r (mkObj (set b (data o)) (refs o)) h | _ => h end
  | _, _ => h
  end.

Definition set_raw (b : bytes) (d : payload) : payload :=
  match d with
  | DPlace _ e eu c cu rg od => DPlace b e eu c cu rg od
  | DPlace2 _ e eu c cu rg od => DPlace2 b e eu c cu rg od
  | DVehicle _ ob oe => DVehicle b ob oe
  | DPlaces _ n => DPlaces b n
  | DPlaces2 _ n => DPlaces2 b n
  | DVehicles _ n => DVehicles b n
  | d => d
  end.

(** ** Places *)

Definition renew_place : ref -> heap -> heap := renew_at place_at append_place set_raw.

(** internal/dd/place_record.go:148-184: the time is that of the source (lines 136-138
    and 156) *)
Definition anonymize_place_h (r : ref) (h : heap) : ref * heap :=
  match fetch h r with
  | Some (mkObj (DPlace _ e eu _ _ _ od) ts) =>
      let (r, h) := new (mkObj (DPlace [] e eu FINLAND None [1] (Z.quot od 100 * 100)) ts) h in
      (r, renew_place r h)
  | _ => (None, h)
  end.

(** places.go:196-202: a new time instead of the one there is *)
Definition stamp_ref (i : Z) (t : ref) (h : heap) : ref * heap :=
  match t with
  | None => if i =? 0 then new (mkObj (DTime (mkTs (TEST_EPOCH + i * 3600) 0)) []) h else (None, h)
  | Some _ => new (mkObj (DTime (mkTs (TEST_EPOCH + i * 3600) 0)) []) h
  end.

(** internal/card/places.go:193-203 *)
Definition stamp_place_h (i : Z) (r : ref) (h : heap) : heap :=
  match fetch h r with
  | Some (mkObj d [t]) => let (t, h) := stamp_ref i t h in store r (mkObj d [t]) h
  | _ => h
  end.

(** internal/card/places.go:139-179 *)
Definition anonymize_places_h (x : ref) (h : heap) : ref * heap :=
  match fetch h x with
  | Some (mkObj (DPlaces _ n) rs) =>
      let (y, h) := new (mkObj (DPlaces [] n) []) h in
      let (rs, h) := collect (fun _ => anonymize_place_h) 0 rs h in
      let h := store y (mkObj (DPlaces [] n) rs) h in
      let h := each stamp_place_h 0 rs h in
      let h := each (fun _ => renew_place) 0 rs h in
      (y, renew_at places_at (fun p => append_places (Some p)) set_raw y h)
  | _ => (None, h)
  end.

(** internal/dd/gnss_place_record.go:118-140 *)
Definition anonymize_gnss_h (r : ref) (h : heap) : ref * heap :=
  match fetch h r with
  | Some (mkObj (DGnss acc) [t; _]) =>
      let (g, h) := new (mkObj (DGeo (mkGeo 60100 24560)) []) h in
      new (mkObj (DGnss acc) [t; g]) h
  | _ => (None, h)
  end.

(** internal/dd/place_record_g2.go:155-188 *)
Definition anonymize_place2_h (r : ref) (h : heap) : ref * heap :=
  match fetch h r with
  | Some (mkObj (DPlace2 _ e eu _ _ _ od) [t; g]) =>
      let (g, h) := anonymize_gnss_h g h in
      new (mkObj (DPlace2 [] e eu FINLAND None [1] (Z.quot od 100 * 100)) [t; g]) h
  | _ => (None, h)
  end.

(** internal/card/places_g2.go:195-215 *)
Definition stamp_place2_h (i : Z) (r : ref) (h : heap) : heap :=
  match fetch h r with
  | Some (mkObj d [t; g]) =>
      let (t, h) := stamp_ref i t h in
      let h := store r (mkObj d [t; g]) h in
      match fetch h g with
      | Some (mkObj e [Some _; geo]) =>
          let (tg, h) := new (mkObj (DTime (mkTs (TEST_EPOCH + i * 3600) 0)) []) h in
          store g (mkObj e [tg; geo]) h
      | _ => h
      end
  | _ => h
  end.

Definition renew_place2 : ref -> heap -> heap := renew_at place2_at append_place_g2 set_raw.

(** internal/card/places_g2.go:141-181 *)
Definition anonymize_places2_h (x : ref) (h : heap) : ref * heap :=
  match fetch h x with
  | Some (mkObj (DPlaces2 _ n) rs) =>
      let (y, h) := new (mkObj (DPlaces2 [] n) []) h in
      let (rs, h) := collect (fun _ => anonymize_place2_h) 0 rs h in
      let h := store y (mkObj (DPlaces2 [] n) rs) h in
      let h := each stamp_place2_h 0 rs h in
      let h := each (fun _ => renew_place2) 0 rs h in
      (y, renew_at places2_at (fun p => append_places_g2 (Some p)) set_raw y h)
  | _ => (None, h)
  end.

(** ** Vehicles used *)

(** internal/dd/card_vehicle_record.go:156-205: the counter is that of the source (line
    196) *)
Definition anonymize_vehicle_h (i : Z) (r : ref) (h : heap) : ref * heap :=
  match fetch h r with
  | Some (mkObj (DVehicle _ ob oe) [_; _; v; c]) =>
      let first := TEST_EPOCH + i * 86400 in
      let (f, h) := new (mkObj (DTime (mkTs first 0)) []) h in
      let (l, h) := new (mkObj (DTime (mkTs (first + 86400 - 1) 0)) []) h in
      let (v, h) :=
        match fetch h v with
        | Some (mkObj (DReg n) _) =>
            let (s, h) := new (mkObj (DStr (test_string 13 "TEST-VRN")) []) h in
            new (mkObj (DReg n) [s]) h
        | _ => (None, h)
        end in
      let (r, h) := new (mkObj (DVehicle [] (Z.quot ob 1000 * 1000) (Z.quot oe 1000 * 1000)) [f; l; v; c]) h in
      (r, renew_at vehicle_at append_card_vehicle set_raw r h)
  | _ => (None, h)
  end.

(** internal/card/vehicles_used.go:138-165 *)
Definition anonymize_vehicles_h (x : ref) (h : heap) : ref * heap :=
  match fetch h x with
  | Some (mkObj (DVehicles _ n) rs) =>
      let (y, h) := new (mkObj (DVehicles [] n) []) h in
      let (rs, h) := collect anonymize_vehicle_h 0 rs h in
      let h := store y (mkObj (DVehicles [] n) rs) h in
      (y, renew_at vehicles_at (fun v => append_vehicles (Some v)) set_raw y h)
  | _ => (None, h)
  end.

(** ** Identification *)

Definition new_str (n : Z) (s : string) : heap -> ref * heap := new (mkObj (DStr (test_string n s)) []).
Definition new_time (s : Z) : heap -> ref * heap := new (mkObj (DTime (mkTs s 0)) []).

(** identification.go:495-497 and internal/dd/driver_identification.go:66-77 *)
Definition anonymize_driver_h (r : ref) (h : heap) : ref * heap :=
  match fetch h r with
  | Some (mkObj DDriver _) =>
      let (a, h) := new (mkObj (DIa5 (test_ia5 14 "DRIVER00000001")) []) h in
      new (mkObj DDriver [a; None; None]) h
  | _ => (None, h)
  end.

(** identification.go:500-509: the three indices are those of the source *)
Definition anonymize_owner_h (r : ref) (h : heap) : ref * heap :=
  match fetch h r with
  | Some (mkObj DOwner [_; b; c; d]) =>
      let (a, h) := new (mkObj (DIa5 (test_ia5 13 "OWNER00000001")) []) h in
      new (mkObj DOwner [a; b; c; d]) h
  | _ => (None, h)
  end.

(** identification.go:486-524 *)
Definition anonymize_card_h (r : ref) (h : heap) : ref * heap :=
  match fetch h r with
  | Some (mkObj (DCard n) [d; o; _; _; _; _]) =>
      let (d, h) := anonymize_driver_h d h in
      let (o, h) := anonymize_owner_h o h in
      let (a, h) := new_str 35 "TEST_AUTHORITY" h in
      let (i, h) := new_time 1577836800 h in
      let (b, h) := new_time 1577836800 h in
      let (e, h) := new_time 1735689599 h in
      new (mkObj (DCard n) [d; o; a; i; b; e]) h
  | _ => (None, h)
  end.

(** identification.go:528-559: the language is that of the source *)
Definition anonymize_holder_h (r : ref) (h : heap) : ref * heap :=
  match fetch h r with
  | Some (mkObj DHolder [_; _; _; l]) =>
      let (s, h) := new_str 35 "TEST_SURNAME" h in
      let (f, h) := new_str 35 "TEST_FIRSTNAME" h in
      let (b, h) := new (mkObj (DDate test_birth) []) h in
      new (mkObj DHolder [s; f; b; l]) h
  | _ => (None, h)
  end.

(** identification.go:561-595 and :597-631: likewise *)
Definition anonymize_body_h (name : string) (r : ref) (h : heap) : ref * heap :=
  match fetch h r with
  | Some (mkObj DBody [_; _; _; _; l]) =>
      let (n, h) := new_str 35 name h in
      let (a, h) := new_str 35 "TEST_ADDRESS" h in
      let (s, h) := new_str 35 "TEST_SURNAME" h in
      let (f, h) := new_str 35 "TEST_FIRSTNAME" h in
      new (mkObj DBody [n; a; s; f; l]) h
  | _ => (None, h)
  end.

(** identification.go:633-654: likewise *)
Definition anonymize_company_h (r : ref) (h : heap) : ref * heap :=
  match fetch h r with
  | Some (mkObj DCompany [_; _; l]) =>
      let (n, h) := new_str 35 "TEST_COMPANY" h in
      let (a, h) := new_str 35 "TEST_ADDRESS" h in
      new (mkObj DCompany [n; a; l]) h
  | _ => (None, h)
  end.

(** identification.go:477-661 *)
Definition anonymize_ident_h (x : ref) (h : heap) : ref * heap :=
  match fetch h x with
  | Some (mkObj (DIdent ty _ _) [c; d; w; k; m]) =>
      let (c, h) := anonymize_card_h c h in
      let (d, h) := if ty =? CARD_TYPE_DRIVER then anonymize_holder_h d h else (None, h) in
      let (w, h) := if ty =? CARD_TYPE_WORKSHOP then anonymize_body_h "TEST_WORKSHOP" w h else (None, h) in
      let (k, h) := if ty =? CARD_TYPE_CONTROL then anonymize_body_h "TEST_CONTROL_BODY" k h else (None, h) in
      let (m, h) := if ty =? CARD_TYPE_COMPANY then anonymize_company_h m h else (None, h) in
      new (mkObj (DIdent ty None false) [c; d; w; k; m]) h
  | _ => (None, h)
  end.
