(** Verification with the default source (cert.go:36-41) and what it sends: the HTTP
    requests of internal/cert/client.go:34-102 in their order.  The network is any
    function of the requests sent so far; it may answer the same request differently
    each time.  Building a request fails for some addresses before anything is sent;
    this is counted as a request here. *)

From Verif Require Import Base DDScalar Cert DriverCard Vu Verify Api.

Section Net.
Variables (k : crypto) (files : cert_files) (ix : cert_index).
(** The answer to a request (the body of a response with status 200, or an error) if
    the requests [before] were sent before. *)
Variable net : list bytes -> bytes -> res bytes.

(** Code that may send requests: from the requests sent before to those sent then. *)
Definition io (A : Type) : Type := list bytes -> A * list bytes.

(** client.go:49-64, 85-100 *)
Definition fetch (u : bytes) : io (res bytes) := fun sent => (net sent u, sent ++ [u]).

(** client.go:34-66 *)
Definition client_rsa (chr : bytes) : io (res (option rsa_cert)) := fun sent =>
  match url_of (ix_g1 ix) chr with
  | None => (fail, sent)
  | Some u => let '(d, sent) := fetch u sent in ((let* d := d in some_res (unmarshal_rsa d)), sent)
  end.

(** client.go:69-102 *)
Definition client_ecc (chr : bytes) : io (res (option ecc_cert)) := fun sent =>
  match url_of (ix_g2 ix) chr with
  | None => (fail, sent)
  | Some u => let '(d, sent) := fetch u sent in ((let* d := d in some_res (unmarshal_ecc d)), sent)
  end.

(** internal/cert/chain.go:27-64 *)
Fixpoint try_all {A} (l : list (io (res A))) : io (res A) := fun sent =>
  match l with
  | [] => (fail, sent)
  | p :: t =>
      match p sent with
      | (Ok a, sent) => (Ok a, sent)
      | (Err _, sent) => try_all t sent
      | (Panic, sent) => (Panic, sent)
      end
  end.

Definition still {A} (a : A) : io A := fun sent => (a, sent).

(** driver_card_file.go:1092-1119 *)
Definition obtain_rsa_net (x : rsa_cert) : io (res rsa_cert) := fun sent =>
  match try_all [still (get_rsa (embedded files) (rsa_car x)); client_rsa (rsa_car x)] sent with
  | (Ok o, sent) =>
      let ca := odflt (mkRsa [] [] None [] [] [] None) o in
      if (length (rsa_n ca) =? 0)%nat || (length (rsa_e ca) =? 0)%nat then
        match try_all [still (get_root (embedded files)); still fail] sent with
        | (Ok root, sent) =>
            (match o with
             | None => fail
             | Some ca =>
                 match verify_rsa_with_root k ca root with
                 | (Ok _, ca') => Ok ca'
                 | (Err e, _) => Err e
                 | (Panic, _) => Panic
                 end
             end, sent)
        | (Err e, sent) => (Err e, sent)
        | (Panic, sent) => (Panic, sent)
        end
      else (Ok ca, sent)
  | (Err e, sent) => (Err e, sent)
  | (Panic, sent) => (Panic, sent)
  end.

(** driver_card_file.go:1079-1127 *)
Definition verify_gen1_net (c : driver_card) : io (res unit * driver_card) := fun sent =>
  match card_certificate c with
  | None => ((fail, c), sent)
  | Some x =>
      match obtain_rsa_net x sent with
      | (Ok ca, sent) => ((let '(o, x') := verify_rsa_with_ca k x (Some ca) in (o, store_rsa c x')), sent)
      | (Err e, sent) => ((Err e, c), sent)
      | (Panic, sent) => ((Panic, c), sent)
      end
  end.

(** driver_card_file.go:1131-1162 *)
Definition verify_gen2_net (c : driver_card) : io (res unit * driver_card) := fun sent =>
  match card_sign_certificate c with
  | None => ((fail, c), sent)
  | Some x =>
      match try_all [still (get_ecc (embedded files) (ecc_car x)); client_ecc (ecc_car x)] sent with
      | (Ok ca, sent) => ((let '(o, x') := verify_ecc k x ca in (o, store_ecc c x')), sent)
      | (Err e, sent) => ((Err e, c), sent)
      | (Panic, sent) => ((Panic, c), sent)
      end
  end.

(** driver_card_file.go:1054-1074 *)
Definition verify_driver_card_net (c : driver_card) : io (res unit * driver_card) := fun sent =>
  match (if dc_has c Gen1 then verify_gen1_net c sent else ((Ok tt, c), sent)) with
  | ((Ok _, c), sent) => if dc_has c Gen2 then verify_gen2_net c sent else ((Ok tt, c), sent)
  | ((o, c), sent) => ((o, c), sent)
  end.

(** verify.go:42-67 *)
Definition verify_file_net (o : option file) : io (res unit * option file) := fun sent =>
  match o with
  | None => ((fail, None), sent)
  | Some f =>
      if file_type f =? FILE_DRIVER_CARD then
        match file_driver_card f with
        | None => ((fail, Some f), sent)
        | Some c =>
            let '((out, c'), sent) := verify_driver_card_net c sent in
            ((out, Some (mkFile (file_type f) (file_vu f) (Some c') (file_raw_card f))), sent)
        end
      else if (file_type f =? FILE_VEHICLE_UNIT) || (file_type f =? FILE_RAW_CARD) then ((Ok tt, Some f), sent)
      else ((fail, Some f), sent)
  end.
End Net.
