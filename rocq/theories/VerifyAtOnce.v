(** Verifying one card message several times at the same time: the goroutines share
    the message, and verification writes to its two certificates
    (internal/security/rsa_verify.go:223-230, internal/security/ecc_verify.go:122).

    The goroutines run VerifyDriverCardFile (internal/card/driver_card_file.go:1054-1074)
    in steps: every setter of a certificate of the message is one step, and the steps
    are interleaved in any order.  What is read of the message before the setters is
    one step: of what it reads, only the authority reference of the first-generation
    certificate is ever written.  Simplified: memory is sequentially consistent and a
    setter is atomic, which Go does not promise for programs with data races.  The
    source answers with new objects each time. *)

From Verif Require Import Base DDScalar Cert DriverCard Verify VerifyShared.

(** What a goroutine does next. *)
Inductive stage :=
  | Look                                      (** driver_card_file.go:1060, 1080-1117, rsa_verify.go:25-221 *)
  | Refuse (e : err)                          (** rsa_verify.go: SetSignatureValid(false) and the error *)
  | Fill_valid (new : rsa_cert) | Fill_chr (new : rsa_cert) | Fill_car (new : rsa_cert)
  | Fill_eov (new : rsa_cert) | Fill_modulus (new : rsa_cert) | Fill_exponent (new : rsa_cert)
                                              (** rsa_verify.go:223-230 *)
  | Second                                    (** driver_card_file.go:1067, 1132-1158, ecc_verify.go:37-120 *)
  | Mark (v : bool) (o : res unit)            (** ecc_verify.go:107 and 122 *)
  | Ended (o : res unit).

Definition unmarked_ecc (c : ecc_cert) : ecc_cert :=
  mkEcc (ecc_cpi c) (ecc_car c) (ecc_cha c) (ecc_pk c) (ecc_chr c) (ecc_from c) (ecc_to c) (ecc_sig c) None (ecc_raw c).

(** One setter on the first-generation certificate of the message. *)
Definition change (d : driver_card) (f : rsa_cert -> rsa_cert) : driver_card :=
  match card_certificate d with
  | Some a => store_rsa d (f a)
  | None => d
  end.

(** One step of a goroutine; [d] is the message they share. *)
Definition go_on (k : crypto) (r : resolver) (d : driver_card) (p : stage) : driver_card * stage :=
  match p with
  | Look =>
      if dc_has d Gen1 then
        match card_certificate d with
        | None => (d, Ended fail)
        | Some x =>
            match obtain_rsa_ca k (Some r) d x with
            | Ok ca =>
                match verify_rsa_with_ca k (unmarked x) (Some ca) with
                | (Ok _, new) => (d, Fill_valid new)
                | (Err e, b) => (d, match rsa_valid b with Some _ => Refuse e | None => Ended (Err e) end)
                | (Panic, _) => (d, Ended Panic)
                end
            | Err e => (d, Ended (Err e))
            | Panic => (d, Ended Panic)
            end
        end
      else (d, Second)
  | Refuse e => (change d (fun a => rsa_mark a false), Ended (Err e))
  | Fill_valid new => (change d (fun a => rsa_mark a true), Fill_chr new)
  | Fill_chr new =>
      (change d (fun a => mkRsa (rsa_chr new) (rsa_car a) (rsa_eov a) (rsa_n a) (rsa_e a) (rsa_raw a) (rsa_valid a)),
       Fill_car new)
  | Fill_car new =>
      (change d (fun a => mkRsa (rsa_chr a) (rsa_car new) (rsa_eov a) (rsa_n a) (rsa_e a) (rsa_raw a) (rsa_valid a)),
       Fill_eov new)
  | Fill_eov new =>
      (change d (fun a => mkRsa (rsa_chr a) (rsa_car a) (rsa_eov new) (rsa_n a) (rsa_e a) (rsa_raw a) (rsa_valid a)),
       Fill_modulus new)
  | Fill_modulus new =>
      (change d (fun a => mkRsa (rsa_chr a) (rsa_car a) (rsa_eov a) (rsa_n new) (rsa_e a) (rsa_raw a) (rsa_valid a)),
       Fill_exponent new)
  | Fill_exponent new =>
      (change d (fun a => mkRsa (rsa_chr a) (rsa_car a) (rsa_eov a) (rsa_n a) (rsa_e new) (rsa_raw a) (rsa_valid a)),
       Second)
  | Second =>
      if dc_has d Gen2 then
        match card_sign_certificate d with
        | None => (d, Ended fail)
        | Some y =>
            match obtain_ecc_ca (Some r) d y with
            | Ok ca =>
                let '(o, y') := verify_ecc k (unmarked_ecc y) ca in
                (d, match ecc_valid y' with Some v => Mark v o | None => Ended o end)
            | Err e => (d, Ended (Err e))
            | Panic => (d, Ended Panic)
            end
        end
      else (d, Ended (Ok tt))
  | Mark v o =>
      (match card_sign_certificate d with Some y => store_ecc d (ecc_mark y v) | None => d end, Ended o)
  | Ended _ => (d, p)
  end.

Definition turn (k : crypto) (r : resolver) (s : driver_card * list stage) (i : nat) : driver_card * list stage :=
  let '(d, ps) := s in
  match nth_error ps i with
  | None => s
  | Some p => let '(d', p') := go_on k r d p in (d', update ps i p')
  end.

(** [n] goroutines that verify [c]; [turns] says whose turn it is. *)
Definition at_once (k : crypto) (r : resolver) (c : driver_card) (n : nat) (turns : list nat) : driver_card * list stage :=
  fold_left (turn k r) turns (c, repeat Look n).
