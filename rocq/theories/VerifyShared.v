(** Verifying several cards at the same time with one source that keeps its
    certificates: the source answers a reference with the same certificate object
    every time (a cache), and verification writes to that object
    (internal/security/rsa_verify.go:223-230).

    The goroutines run verifyGen1Certificates (internal/card/driver_card_file.go:1079-1127)
    in steps: every getter and every setter of the shared certificate is one step,
    and the steps are interleaved in any order.  Simplified: memory is sequentially
    consistent and a setter is atomic, which Go does not promise for programs with
    data races.  The cards are distinct messages; the objects of the source are not
    part of a card.  The second generation only reads the objects of the source, so
    it is one step here. *)

From Verif Require Import Base DDScalar Cert DriverCard Verify.

(** The objects of the source, by reference. *)
Definition heap := bytes -> rsa_cert.

Definition write (h : heap) (q : bytes) (c : rsa_cert) : heap :=
  fun p => if list_eq_dec Z.eq_dec p q then c else h p.

(** What a goroutine does next. *)
Inductive next :=
  | Fetch                                     (** lines 1091-1096 *)
  | Check_modulus | Check_exponent            (** line 1100 *)
  | Recover                                   (** lines 1101-1111, rsa_verify.go:90-220: reads raw_data only *)
  | Mark_invalid (e : err)                    (** rsa_verify.go: SetSignatureValid(false) and the error *)
  | Set_valid (new : rsa_cert) | Set_chr (new : rsa_cert) | Set_car (new : rsa_cert)
  | Set_eov (new : rsa_cert) | Set_modulus (new : rsa_cert) | Set_exponent (new : rsa_cert)
                                              (** rsa_verify.go:223-230 *)
  | Get_modulus | Get_exponent (n : bytes) | Get_chr (n e : bytes)
                                              (** rsa_verify.go:25-29 *)
  | Done (o : res unit) (c : driver_card).

(** driver_card_file.go:1054-1074 behind the first generation *)
Definition finish (k : crypto) (r : resolver) (o : res unit) (c : driver_card) : next :=
  match o with
  | Ok _ => if dc_has c Gen2 then let '(o', c') := verify_gen2 k (Some r) c in Done o' c' else Done (Ok tt) c
  | _ => Done o c
  end.

(** The certificate without a verdict: tells the failures that write one from
    those that do not. *)
Definition unmarked (c : rsa_cert) : rsa_cert :=
  mkRsa (rsa_chr c) (rsa_car c) (rsa_eov c) (rsa_n c) (rsa_e c) (rsa_raw c) None.

(** One step of a goroutine that verifies card [c]. *)
Definition advance (k : crypto) (r : resolver) (c : driver_card) (h : heap) (p : next) : heap * next :=
  match p with
  | Fetch =>
      if dc_has c Gen1 then
        match card_certificate c with
        | None => (h, Done fail c)
        | Some x =>
            match get_rsa r (rsa_car x) with
            | Ok (Some _) => (h, Check_modulus)
            | Ok None => (h, Done (let* _ := get_root r in fail) c)
            | Err e => (h, Done (Err e) c)
            | Panic => (h, Done Panic c)
            end
        end
      else (h, finish k r (Ok tt) c)
  | Done _ _ => (h, p)
  | _ =>
      match card_certificate c with
      | None => (h, p)
      | Some x =>
          let q := rsa_car x in
          let a := h q in
          match p with
          | Check_modulus => (h, if (length (rsa_n a) =? 0)%nat then Recover else Check_exponent)
          | Check_exponent => (h, if (length (rsa_e a) =? 0)%nat then Recover else Get_modulus)
          | Recover =>
              match get_root r with
              | Ok root =>
                  match verify_rsa_with_root k (unmarked a) root with
                  | (Ok _, new) => (h, Set_valid new)
                  | (Err e, b) => (h, match rsa_valid b with Some _ => Mark_invalid e | None => Done (Err e) c end)
                  | (Panic, _) => (h, Done Panic c)
                  end
              | Err e => (h, Done (Err e) c)
              | Panic => (h, Done Panic c)
              end
          | Mark_invalid e => (write h q (rsa_mark a false), Done (Err e) c)
          | Set_valid new => (write h q (rsa_mark a true), Set_chr new)
          | Set_chr new =>
              (write h q (mkRsa (rsa_chr new) (rsa_car a) (rsa_eov a) (rsa_n a) (rsa_e a) (rsa_raw a) (rsa_valid a)),
               Set_car new)
          | Set_car new =>
              (write h q (mkRsa (rsa_chr a) (rsa_car new) (rsa_eov a) (rsa_n a) (rsa_e a) (rsa_raw a) (rsa_valid a)),
               Set_eov new)
          | Set_eov new =>
              (write h q (mkRsa (rsa_chr a) (rsa_car a) (rsa_eov new) (rsa_n a) (rsa_e a) (rsa_raw a) (rsa_valid a)),
               Set_modulus new)
          | Set_modulus new =>
              (write h q (mkRsa (rsa_chr a) (rsa_car a) (rsa_eov a) (rsa_n new) (rsa_e a) (rsa_raw a) (rsa_valid a)),
               Set_exponent new)
          | Set_exponent new =>
              (write h q (mkRsa (rsa_chr a) (rsa_car a) (rsa_eov a) (rsa_n a) (rsa_e new) (rsa_raw a) (rsa_valid a)),
               Get_modulus)
          | Get_modulus => (h, Get_exponent (rsa_n a))
          | Get_exponent n => (h, Get_chr n (rsa_e a))
          | Get_chr n e =>
              let '(o, x') := verify_rsa k x n e (rsa_chr a) in (h, finish k r o (store_rsa c x'))
          | Fetch | Done _ _ => (h, p)
          end
      end
  end.

(** Goroutines: the card each one was started with and what it does next. *)
Definition pool := list (driver_card * next).

Fixpoint update {X} (l : list X) (i : nat) (x : X) : list X :=
  match l, i with
  | [], _ => []
  | _ :: t, O => x :: t
  | y :: t, S j => y :: update t j x
  end.

Definition schedule_step (k : crypto) (r : resolver) (s : heap * pool) (i : nat) : heap * pool :=
  let '(h, ps) := s in
  match nth_error ps i with
  | None => s
  | Some (c, p) => let '(h', p') := advance k r c h p in (h', update ps i (c, p'))
  end.

(** The goroutines whose turn it is, in order. *)
Definition run (k : crypto) (r : resolver) (s : heap * pool) (turns : list nat) : heap * pool :=
  fold_left (schedule_step k r) turns s.

Definition start (cards : list driver_card) : pool := map (fun c => (c, Fetch)) cards.
