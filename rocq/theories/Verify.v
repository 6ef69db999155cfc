(** Certificate sources (internal/cert, cert.go) and the verification of driver
    cards (internal/card/driver_card_file.go). *)

From Verif Require Import Base DDScalar Cert DriverCard.

(** ** Certificate sources *)

(** driver_card_file.go:1016-1030 CertificateResolver.  A source answers every
    request the same way each time; an answer can be a nil certificate with a nil
    error.  The context is left out. *)
Record resolver := mkResolver {
  get_root : res (option root_cert);
  get_rsa : bytes -> res (option rsa_cert);
  get_ecc : bytes -> res (option ecc_cert) }.

(** internal/cert/chain.go:27-64: the loop the three methods share; the joined
    errors are one error here. *)
Fixpoint first_success {A} (l : list (res A)) : res A :=
  match l with
  | [] => fail
  | Ok a :: _ => Ok a
  | Err _ :: t => first_success t
  | Panic :: _ => Panic
  end.

(** internal/cert/chain.go:20-24 NewChainResolver *)
Definition chain (rs : list resolver) : resolver :=
  mkResolver (first_success (map get_root rs))
    (fun chr => first_success (map (fun r => get_rsa r chr) rs))
    (fun chr => first_success (map (fun r => get_ecc r chr) rs)).

(** The files next to internal/cert/certcache/embed.go: root/EC_PK.bin and the files
    in the directories g1 and g2 with their names. *)
Record cert_files := mkFiles {
  cf_root : bytes; cf_g1 : list (bytes * bytes); cf_g2 : list (bytes * bytes) }.

(** embed.FS.ReadFile: a variable with the directive [go:embed dir/*.bin] holds the
    files under their path from the package directory, i.e. dir/name. *)
Definition read_embedded (dir : bytes) (files : list (bytes * bytes)) (path : bytes) : option bytes :=
  match find (fun f => if list_eq_dec Z.eq_dec path (dir ++ 47 :: fst f) then true else false) files with
  | Some (_, d) => Some d
  | None => None
  end.

(** ".bin", "g1", "g2" *)
Definition bin_suffix : bytes := [46; 98; 105; 110].
Definition dir_g1 : bytes := [103; 49].
Definition dir_g2 : bytes := [103; 50].

(** internal/cert/certcache/embed.go:21-28 ReadG1, 31-37 ReadG2 *)
Definition read_g1 (c : cert_files) (chr : bytes) : option bytes :=
  read_embedded dir_g1 (cf_g1 c) (chr ++ bin_suffix).
Definition read_g2 (c : cert_files) (chr : bytes) : option bytes :=
  read_embedded dir_g2 (cf_g2 c) (chr ++ bin_suffix).

Definition some_res {A} (r : res A) : res (option A) := let* a := r in Ok (Some a).

(** internal/cert/embedded.go:22-44, internal/cert/root.go:19-21 *)
Definition embedded (c : cert_files) : resolver :=
  mkResolver (some_res (unmarshal_root (cf_root c)))
    (fun chr => match read_g1 c chr with None => fail | Some d => some_res (unmarshal_rsa d) end)
    (fun chr => match read_g2 c chr with None => fail | Some d => some_res (unmarshal_ecc d) end).

(** The index (certcache/index.go) as CHR and URL of each entry, per generation. *)
Record cert_index := mkIndex { ix_g1 : list (bytes * bytes); ix_g2 : list (bytes * bytes) }.

Definition url_of (l : list (bytes * bytes)) (chr : bytes) : option bytes :=
  match find (fun e => if list_eq_dec Z.eq_dec (fst e) chr then true else false) l with
  | Some (_, u) => Some u
  | None => None
  end.

(** internal/cert/client.go:28-102; [http] is what fetching a URL gives: the body of
    a response with status 200, or an error. *)
Definition client (http : bytes -> res bytes) (ix : cert_index) : resolver :=
  mkResolver fail
    (fun chr => match url_of (ix_g1 ix) chr with
                | None => fail
                | Some u => let* d := http u in some_res (unmarshal_rsa d)
                end)
    (fun chr => match url_of (ix_g2 ix) chr with
                | None => fail
                | Some u => let* d := http u in some_res (unmarshal_ecc d)
                end).

(** cert.go:36-41 DefaultCertificateResolver *)
Definition default_resolver (c : cert_files) (http : bytes -> res bytes) (ix : cert_index) : resolver :=
  chain [embedded c; client http ix].

(** ** Driver cards *)

Definition rsa_of (o : option (rsa_cert * option bytes)) : option rsa_cert := option_map fst o.
Definition ecc_of (o : option (ecc_cert * option bytes)) : option ecc_cert := option_map fst o.

(** The certificates the functions below look at. *)
Definition card_certificate (c : driver_card) : option rsa_cert := rsa_of (slot_of_card c S_card_cert).
Definition card_ca_certificate (c : driver_card) : option rsa_cert := rsa_of (slot_of_card c S_ca_cert).
Definition card_sign_certificate (c : driver_card) : option ecc_cert := ecc_of (slot_of_card c S2_sign_cert).
Definition card_ca_certificate_g2 (c : driver_card) : option ecc_cert := ecc_of (slot_of_card c S2_ca_cert).

Definition signature_of {A} (o : option (A * option bytes)) : option bytes :=
  match o with Some (_, sg) => sg | None => None end.

(** The certificate object is shared with the file: writing to it changes the file. *)
Definition store_rsa (c : driver_card) (x : rsa_cert) : driver_card :=
  set_slot c S_card_cert (x, signature_of (slot_of_card c S_card_cert)).
Definition store_ecc (c : driver_card) (x : ecc_cert) : driver_card :=
  set_slot c S2_sign_cert (x, signature_of (slot_of_card c S2_sign_cert)).

(** The certification authority's certificate: driver_card_file.go:1092-1119.  The
    getters of a nil certificate give empty values; verifying a nil certificate is
    an error.  Root verification writes to the certificate the source returned,
    which is taken not to be part of the file. *)
Definition obtain_rsa_ca (k : crypto) (r : option resolver) (c : driver_card) (x : rsa_cert)
  : res rsa_cert :=
  match r with
  | Some r =>
      let* o := get_rsa r (rsa_car x) in
      let ca := odflt (mkRsa [] [] None [] [] [] None) o in
      if (length (rsa_n ca) =? 0)%nat || (length (rsa_e ca) =? 0)%nat then
        let* root := get_root r in
        match o with
        | None => fail
        | Some ca =>
            match verify_rsa_with_root k ca root with
            | (Ok _, ca') => Ok ca'
            | (Err e, _) => Err e
            | (Panic, _) => Panic
            end
        end
      else Ok ca
  | None =>
      match card_ca_certificate c with
      | None => fail
      | Some ca => Ok ca
      end
  end.

(** driver_card_file.go:1079-1127 verifyGen1Certificates *)
Definition verify_gen1 (k : crypto) (r : option resolver) (c : driver_card) : res unit * driver_card :=
  match card_certificate c with
  | None => (fail, c)
  | Some x =>
      match obtain_rsa_ca k r c x with
      | Ok ca =>
          let '(o, x') := verify_rsa_with_ca k x (Some ca) in (o, store_rsa c x')
      | Err e => (Err e, c)
      | Panic => (Panic, c)
      end
  end.

(** driver_card_file.go:1141-1156 *)
Definition obtain_ecc_ca (r : option resolver) (c : driver_card) (x : ecc_cert)
  : res (option ecc_cert) :=
  match r with
  | Some r => get_ecc r (ecc_car x)
  | None =>
      match card_ca_certificate_g2 c with
      | None => fail
      | Some ca => Ok (Some ca)
      end
  end.

(** driver_card_file.go:1131-1162 verifyGen2Certificates *)
Definition verify_gen2 (k : crypto) (r : option resolver) (c : driver_card) : res unit * driver_card :=
  match card_sign_certificate c with
  | None => (fail, c)
  | Some x =>
      match obtain_ecc_ca r c x with
      | Ok ca => let '(o, x') := verify_ecc k x ca in (o, store_ecc c x')
      | Err e => (Err e, c)
      | Panic => (Panic, c)
      end
  end.

(** driver_card_file.go:1054-1074 VerifyDriverCardFile: the outcome and the card
    afterwards *)
Definition verify_driver_card (k : crypto) (r : option resolver) (c : driver_card)
  : res unit * driver_card :=
  let '(o, c) := if dc_has c Gen1 then verify_gen1 k r c else (Ok tt, c) in
  match o with
  | Ok _ => if dc_has c Gen2 then verify_gen2 k r c else (Ok tt, c)
  | _ => (o, c)
  end.
