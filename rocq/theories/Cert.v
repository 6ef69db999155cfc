(** Certificates: parsing, serialising and verifying them (internal/security). *)

From Verif Require Import Base Enums DDScalar Asn1.

(** fmt.Sprintf("%d", v) for a non-negative number. *)
Definition dec (v : Z) : bytes := map (Z.add 48) (itoa v).

(** asn1.ObjectIdentifier.String: decimal numbers joined by dots. *)
Fixpoint oid_string (o : list Z) : bytes :=
  match o with
  | [] => []
  | [v] => dec v
  | v :: t => dec v ++ 46 :: oid_string t
  end.

(** ** Messages (proto security/v1) *)

(** root_certificate.proto *)
Record root_cert := mkRoot { root_key_id : bytes; root_n : bytes; root_e : bytes }.

(** rsa_certificate.proto; [rsa_valid] is [None] while signature_valid is unset. *)
Record rsa_cert := mkRsa {
  rsa_chr : bytes; rsa_car : bytes; rsa_eov : option timestamp;
  rsa_n : bytes; rsa_e : bytes; rsa_raw : bytes; rsa_valid : option bool }.

(** ecc_certificate.proto *)
Record ecc_key := mkKey { key_oid : bytes; key_x : bytes; key_y : bytes }.
Record ecc_cert := mkEcc {
  ecc_cpi : Z; ecc_car : bytes; ecc_cha : bytes; ecc_pk : option ecc_key; ecc_chr : bytes;
  ecc_from : option timestamp; ecc_to : option timestamp; ecc_sig : option (bytes * bytes);
  ecc_valid : option bool; ecc_raw : bytes }.

(** ** Parsing *)

(** internal/security/timereal.go:12-20; 0xFFFFFFFF is a time like any other. *)
Definition sec_time (d : bytes) : res timestamp :=
  let* _ := guard (length d =? 4)%nat in Ok (mkTs (be d) 0).

(** internal/security/root_certificate.go:25-54 *)
Definition unmarshal_root (d : bytes) : res root_cert :=
  let* _ := guard (length d =? 144)%nat in
  Ok (mkRoot (dec (be (sub d 0 8))) (sub d 8 128) (sub d 136 8)).

(** internal/security/rsa_certificate.go:43-68 *)
Definition unmarshal_rsa (d : bytes) : res rsa_cert :=
  let* _ := guard (length d =? 194)%nat in
  Ok (mkRsa [] (dec (be (sub d 186 8))) None [] [] d None).

(** rsa_certificate.go:77-96 *)
Definition append_rsa (o : option rsa_cert) : res bytes :=
  match o with
  | None => fail
  | Some c => if (0 <? length (rsa_raw c))%nat && (length (rsa_raw c) =? 194)%nat then Ok (rsa_raw c) else fail
  end.

(** asn1.Unmarshal into a RawValue followed by a check of its length. *)
Definition raw_of_length (n : nat) (d : bytes) : res (bytes * bytes) :=
  let* (v, rest) := asn1_raw d in
  let* _ := guard (length (rv_bytes v) =? n)%nat in
  Ok (rv_bytes v, rest).

(** internal/security/ecc_certificate.go:100-128: the public key *)
Definition unmarshal_key (d : bytes) : res ecc_key :=
  let* (o, rest) := asn1_oid 6 d in
  let* (p, _) := asn1_raw rest in
  let pt := rv_bytes p in
  let* _ := guard (negb (length pt <? 1)%nat && (nth 0 pt 0 =? 4)) in
  let c := ((length pt - 1) / 2)%nat in
  let* _ := guard (length pt =? 1 + 2 * c)%nat in
  Ok (mkKey (oid_string o) (sub pt 1 c) (skipn (1 + c) pt)).

(** internal/security/ecc_certificate.go:35-203 *)
Definition unmarshal_ecc (d : bytes) : res ecc_cert :=
  let* _ := guard (negb ((length d <? 204)%nat || (341 <? length d)%nat)) in
  let* (outer, _) := asn1_raw d in
  let* (body, after_body) := asn1_raw (rv_bytes outer) in
  let* (cpi, r1) := raw_of_length 1 (rv_bytes body) in
  let* (car, r2) := raw_of_length 8 r1 in
  let* (cha, r3) := raw_of_length 7 r2 in
  let* (pk, r4) := asn1_raw r3 in
  let* key := unmarshal_key (rv_bytes pk) in
  let* (chr, r5) := raw_of_length 8 r4 in
  let* (from, r6) := raw_of_length 4 r5 in
  let* tf := sec_time from in
  let* (to, _) := raw_of_length 4 r6 in
  let* tx := sec_time to in
  let* (sg, _) := asn1_raw after_body in
  let s := rv_bytes sg in
  let* _ := guard (length s mod 2 =? 0)%nat in
  let h := (length s / 2)%nat in
  Ok (mkEcc (nth 0 cpi 0) (dec (be car)) cha (Some key) (dec (be chr)) (Some tf) (Some tx)
            (Some (firstn h s, skipn h s)) None d).

(** ecc_certificate.go:214-236 *)
Definition append_ecc (o : option ecc_cert) : res bytes :=
  match o with
  | None => fail
  | Some c =>
      if (0 <? length (ecc_raw c))%nat && negb ((length (ecc_raw c) <? 204)%nat || (341 <? length (ecc_raw c))%nat)
      then Ok (ecc_raw c) else fail
  end.

(** ** Verification *)

(** The elliptic curves of internal/security/ecc_verify.go:140-181. *)
Inductive curve := BP256 | BP384 | BP512 | NIST256 | NIST384 | NIST521.

(** Cryptographic primitives: crypto/sha1, crypto/sha256 and crypto/sha512
    (by number of bits), ecdsa.Verify on a public point, where [None] is a panic
    (points off the curve).  Nothing is assumed about them. *)
Record crypto := mkCrypto {
  sha1 : bytes -> bytes;
  sha2 : Z -> bytes -> bytes;
  ecdsa : curve -> Z -> Z -> bytes -> Z -> Z -> option bool }.

(** big.Int.Exp(x, y, m) for non-negative numbers; a zero modulus means none. *)
Definition mod_exp (x y m : Z) : Z := if m =? 0 then x ^ y else x ^ y mod m.

Definition rsa_mark (c : rsa_cert) (v : bool) : rsa_cert :=
  mkRsa (rsa_chr c) (rsa_car c) (rsa_eov c) (rsa_n c) (rsa_e c) (rsa_raw c) (Some v).

(** internal/security/rsa_verify.go:90-233 verifyRsaCertificate: the outcome and
    the certificate afterwards.  The recovered number is written in 128 bytes,
    which is what Bytes() and the padding on lines 139-146 give unless it is too
    large.  The length check on line 187 cannot fail. *)
Definition verify_rsa (k : crypto) (c : rsa_cert) (n e chr : bytes) : res unit * rsa_cert :=
  let raw := rsa_raw c in
  if negb (length raw =? 194)%nat then (fail, c)
  else if (length n =? 0)%nat || (length e =? 0)%nat then (fail, c)
  else if negb (if list_eq_dec Z.eq_dec (dec (be (sub raw 186 8))) chr then true else false)
  then (fail, rsa_mark c false)
  else
    let v := mod_exp (be (sub raw 0 128)) (be e) (be n) in
    if 256 ^ 128 <=? v then (fail, rsa_mark c false)
    else
      let sr := to_be 128 v in
      if negb (nth 0 sr 0 =? 106) then (fail, rsa_mark c false)
      else if negb (nth 127 sr 0 =? 188) then (fail, rsa_mark c false)
      else
        let content := sub sr 1 106 ++ sub raw 128 58 in
        if negb (if list_eq_dec Z.eq_dec (sub sr 107 20) (sha1 k content) then true else false)
        then (fail, rsa_mark c false)
        else
          (Ok tt, mkRsa (dec (be (sub content 20 8))) (dec (be (sub content 1 8)))
                    (Some (mkTs (be (sub content 16 4)) 0))
                    (sub content 28 128) (sub content 156 8) raw (Some true)).

(** rsa_verify.go:20-30; a nil certificate to verify is an error. *)
Definition verify_rsa_with_ca (k : crypto) (c : rsa_cert) (ca : option rsa_cert) : res unit * rsa_cert :=
  match ca with
  | None => (fail, c)
  | Some a => verify_rsa k c (rsa_n a) (rsa_e a) (rsa_chr a)
  end.

(** rsa_verify.go:40-50 *)
Definition verify_rsa_with_root (k : crypto) (c : rsa_cert) (root : option root_cert) : res unit * rsa_cert :=
  match root with
  | None => (fail, c)
  | Some r => verify_rsa k c (root_n r) (root_e r) (root_key_id r)
  end.

Definition oid_bp256 : list Z := [1; 3; 36; 3; 3; 2; 8; 1; 1; 7].
Definition oid_bp384 : list Z := [1; 3; 36; 3; 3; 2; 8; 1; 1; 11].
Definition oid_bp512 : list Z := [1; 3; 36; 3; 3; 2; 8; 1; 1; 13].
Definition oid_nist256 : list Z := [1; 2; 840; 10045; 3; 1; 7].
Definition oid_nist384 : list Z := [1; 3; 132; 0; 34].
Definition oid_nist521 : list Z := [1; 3; 132; 0; 35].

Definition curves : list (list Z * (Z * curve)) :=
  [ (oid_bp256, (256, BP256)); (oid_bp384, (384, BP384)); (oid_bp512, (512, BP512));
    (oid_nist256, (256, NIST256)); (oid_nist384, (384, NIST384)); (oid_nist521, (512, NIST521)) ].

(** The entry of [curves] whose identifier, shown by [f], is [x]. *)
Fixpoint curve_of (f : list Z -> list Z) (x : list Z) (l : list (list Z * (Z * curve))) : res (Z * curve) :=
  match l with
  | [] => fail
  | (o, c) :: t => if list_eq_dec Z.eq_dec x (f o) then Ok c else curve_of f x t
  end.

(** internal/security/ecc_verify.go:140-181 parseCurveOID: the identifier in binary
    form (context tag 6), or else its dotted form. *)
Definition parse_curve_oid (s : bytes) : res (Z * curve) :=
  match asn1_oid 134 s with
  | Ok (o, _) => curve_of (fun o => o) o curves
  | Err _ => curve_of oid_string s curves
  | Panic => Panic
  end.

Definition ecc_mark (c : ecc_cert) (v : bool) : ecc_cert :=
  mkEcc (ecc_cpi c) (ecc_car c) (ecc_cha c) (ecc_pk c) (ecc_chr c) (ecc_from c) (ecc_to c)
        (ecc_sig c) (Some v) (ecc_raw c).

(** ecc_verify.go:54-82: everything up to the hash; failures here leave the
    certificate as it is. *)
Definition ecc_prepare (k : crypto) (c : ecc_cert) (ca : option ecc_cert) : res (bytes * curve * Z * Z) :=
  match ca with
  | None => fail
  | Some a =>
      let raw := ecc_raw c in
      let* _ := guard (negb ((length raw <? 204)%nat || (341 <? length raw)%nat)) in
      match ecc_pk a with
      | None => fail
      | Some key =>
          let* _ := guard (negb ((length (key_x key) =? 0)%nat || (length (key_y key) =? 0)%nat)) in
          let* (bits, cv) := parse_curve_oid (key_oid key) in
          let* (outer, _) := asn1_raw raw in
          let* (body, _) := asn1_raw (rv_bytes outer) in
          Ok (sha2 k bits (rv_full body), cv, be (key_x key), be (key_y key))
      end
  end.

(** ecc_verify.go:37-131 VerifyEccCertificateWithCA.  The hash size is always one
    of the three supported ones. *)
Definition verify_ecc (k : crypto) (c : ecc_cert) (ca : option ecc_cert) : res unit * ecc_cert :=
  match ecc_prepare k c ca with
  | Ok (h, cv, x, y) =>
      match ecc_sig c with
      | None => (fail, ecc_mark c false)
      | Some (r, s) =>
          match ecdsa k cv x y h (be r) (be s) with
          | Some true => (Ok tt, ecc_mark c true)
          | Some false => (fail, ecc_mark c false)
          | None => (Panic, c)
          end
      end
  | Err e => (Err e, c)
  | Panic => (Panic, c)
  end.
