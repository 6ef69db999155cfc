(** The work of verifying the first generation: the modular powers that are computed
    and the products on the way.

    internal/security/rsa_verify.go:128-133 computes one power per certificate with
    big.Int.Exp.  The products are those of square-and-multiply, which is what
    math/big does for even moduli and without a modulus; for odd moduli it uses
    Montgomery multiplication, with no more and no larger products. *)

From Verif Require Import Base DDScalar Cert DriverCard Vu Verify Api.

Definition reduce (m v : Z) : Z := if m =? 0 then v else v mod m.

(** x^e mod m, and the products before they are reduced; [e] is read from its first
    bit. *)
Fixpoint power (m x : Z) (e : positive) : Z * list Z :=
  match e with
  | xH => (reduce m x, [])
  | xO p => let '(z, l) := power m x p in (reduce m (z * z), l ++ [z * z])
  | xI p =>
      let '(z, l) := power m x p in
      let w := reduce m (z * z) in
      (reduce m (w * x), l ++ [z * z; w * x])
  end.

Definition power_z (m x e : Z) : Z * list Z :=
  match e with Zpos p => power m x p | _ => (reduce m 1, []) end.

(** A call of Exp: base, exponent, modulus. *)
Definition call : Type := Z * Z * Z.

(** rsa_verify.go:90-133: the call for a certificate and the key of its authority *)
Definition calls_rsa (c : rsa_cert) (n e chr : bytes) : list call :=
  if negb (length (rsa_raw c) =? 194)%nat then []
  else if (length n =? 0)%nat || (length e =? 0)%nat then []
  else if negb (if list_eq_dec Z.eq_dec (dec (be (sub (rsa_raw c) 186 8))) chr then true else false) then []
  else [(be (sub (rsa_raw c) 0 128), be e, be n)].

(** driver_card_file.go:1092-1115: verifying the certificate of the authority *)
Definition calls_authority (r : resolver) (x : rsa_cert) : list call :=
  match get_rsa r (rsa_car x) with
  | Ok (Some ca) =>
      if (length (rsa_n ca) =? 0)%nat || (length (rsa_e ca) =? 0)%nat then
        match get_root r with
        | Ok (Some root) => calls_rsa ca (root_n root) (root_e root) (root_key_id root)
        | _ => []
        end
      else []
  | _ => []
  end.

(** driver_card_file.go:1054-1127 *)
Definition calls_card (k : crypto) (r : resolver) (c : driver_card) : list call :=
  if dc_has c Gen1 then
    match card_certificate c with
    | None => []
    | Some x =>
        calls_authority r x ++
        match obtain_rsa_ca k (Some r) c x with
        | Ok ca => calls_rsa x (rsa_n ca) (rsa_e ca) (rsa_chr ca)
        | _ => []
        end
    end
  else [].
