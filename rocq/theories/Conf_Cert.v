(** The model of certificate verification against real certificates.

    The tests of internal/security verify two Finnish certificates of the first
    generation against the embedded European root.  Here the model does the same,
    with SHA-1 written out.  These are checks of the model on fixed data, not
    properties of it. *)

From Coq Require Import String Zpow_facts.
From Verif Require Import Base Enums DDScalar Asn1 Cert Conf_Json.
Local Open Scope string_scope.
Local Open Scope list_scope.
Local Open Scope Z_scope.

(** internal/cert/certcache/root/EC_PK.bin, in base64 *)
Definition cert_root : bytes := Eval vm_compute in
  flat_map of_b64
   ["/UVDIAD//wHpgHY6REqVJQqVh4LR1UrPwyPSXzlGuBbpL8+dMrQqJhPRo2O05DUyoCZoYynI";
    "lmPMwAH3J4IGtqtlrShxhIpoD2pX2P2h14LJtYEpA+pbZuKpvh2FvdD9rnakYIjXGmF2sfap";
    "hBkQBCTcVtCEaqPIQ5DTUXoPEZLe3/dAkkzbpwAAAAAAAQAB"].

(** internal/security/testdata/certs/g1/finland_tcc37.bin, in base64 *)
Definition cert_tcc37 : bytes := Eval vm_compute in
  flat_map of_b64
   ["NLw5XoshEizu9SeLXNDCPuVa5EZDpfLCvjMPgrDmV9l4t3M5aLHWx5VRoLDdXvRHSK5nnyPL";
    "B6G22ZeWba/j0eWWHy06vbSryjbRjOkQx+23L5gsTfUWY40ZVJUTq5wkIj/BThULOZ7eXzG8";
    "ne1FwisQSNixyP85aMzO+aiGH/KcYrWcnvjaChzhuMDVCFRO6oHcXa02MgwMs3PCezzKwE9Q";
    "tsRJ6NVrNCzDyigp++QT+QAAAAAAAQAB/UVDIAD//wE="].

(** internal/security/testdata/certs/g1/finland_tcc38.bin, in base64 *)
Definition cert_tcc38 : bytes := Eval vm_compute in
  flat_map of_b64
   ["YMzFsoqCemdspwu0BVKmojE97xqgQZSAAFdrSIqXCrjne3J6I4KGuhZx1omBeoefY4LNUg+L";
    "MS/CCMZKcfjuIHi0vZVwGHhj3mpCtvYEcaa2FL1ceh2ehz++UanuI6Lj74wph192kjxLp7uP";
    "vvUxU5fItr9eA/LzWNrxLdfSQYULIUYH2b8AwPP7w737kT0yO/AlXPslZa9HTrFMBolPU6iS";
    "Yji6+YgG8dNRTY5xViSqLwAAAAAAAQAB/UVDIAD//wE="].

(** internal/security/testdata/certs/g2/finland_msca_card42.bin, in base64 *)
Definition cert_card42 : bytes := Eval vm_compute in
  flat_map of_b64
   ["fyGByH9OgYFfKQEAQgj9RUMgAf//AV9MB/9TTVJEVA5/SU0GCCqGSM49AwEHhkEEWOHosKme";
    "yNBgtssPkTlTlfbyeDuje4BGCYlP2frF5tXZYxfqqILXp1eNcfHF3+Q8gPba1pcUx0V/C1Jq";
    "x7qag18gCBJGSU4q//8BXyUEZfOPgF8kBHNGJ/9fN0BnoHKkWQQYmmLHf5miRaldHtPk9K1Z";
    "KOBJwp/y2xzMv1aX8K6dGVr66Xb7aIs37RosC8NaoRG+i8N/gHyOZkkF"].

(** internal/security/testdata/certs/g2/finland_msca_card43.bin, in base64 *)
Definition cert_card43 : bytes := Eval vm_compute in
  flat_map of_b64
   ["fyGByH9OgYFfKQEAQgj9RUMgAf//AV9MB/9TTVJEVA5/SU0GCCqGSM49AwEHhkEEYZlT8soZ";
    "aaxrUS8jty8cPEfB2qoKDuU9bD9e0GIxarZnuvQnbjitnT/xOYAAuHrnQkqrE46Uw1WhVX66";
    "HGdUQ18gCBJGSU4r//8BXyUEZfOPgF8kBHNGJ/9fN0CXo4+BdCf2V++Q2rVA7wIXrbqCYOoe";
    "mt1SRD7TISVW9oCH4VZ+lvV46cWWorvuomLMdH/VhNCOu0gffpaC1iaP"].

(** ** SHA-1 (FIPS 180-4) *)

Definition w32 (v : Z) : Z := v mod 2 ^ 32.
Definition rotl (n v : Z) : Z := Z.lor (w32 (Z.shiftl v n)) (Z.shiftr v (32 - n)).

(** The message with its padding. *)
Definition sha1_pad (m : bytes) : bytes :=
  let n := length m in
  m ++ [128] ++ zeros ((119 - n mod 64) mod 64) ++ to_be 8 (8 * Z.of_nat n).

(** [n] more words of the schedule, newest first. *)
Fixpoint sha1_extend (n : nat) (w : list Z) : list Z :=
  match n with
  | O => w
  | S n' =>
      let x := Z.lxor (Z.lxor (nth 2 w 0) (nth 7 w 0)) (Z.lxor (nth 13 w 0) (nth 15 w 0)) in
      sha1_extend n' (rotl 1 x :: w)
  end.

Definition sha1_f (t b c d : Z) : Z * Z :=
  if t <? 20 then (Z.lor (Z.land b c) (Z.land (Z.lxor b 0xFFFFFFFF) d), 0x5A827999)
  else if t <? 40 then (Z.lxor (Z.lxor b c) d, 0x6ED9EBA1)
  else if t <? 60 then (Z.lor (Z.lor (Z.land b c) (Z.land b d)) (Z.land c d), 0x8F1BBCDC)
  else (Z.lxor (Z.lxor b c) d, 0xCA62C1D6).

Fixpoint sha1_rounds (t : Z) (ws : list Z) (s : Z * Z * Z * Z * Z) : Z * Z * Z * Z * Z :=
  match ws with
  | [] => s
  | w :: ws' =>
      let '(a, b, c, d, e) := s in
      let '(f, k) := sha1_f t b c d in
      sha1_rounds (t + 1) ws' (w32 (rotl 5 a + f + e + k + w), a, rotl 30 b, c, d)
  end.

(** The big-endian words of [n] blocks of [l] in turn. *)
Fixpoint words (n : nat) (l : bytes) : list Z :=
  match n with O => [] | S n' => be (firstn 4 l) :: words n' (skipn 4 l) end.

Fixpoint sha1_blocks (n : nat) (m : bytes) (s : Z * Z * Z * Z * Z) : Z * Z * Z * Z * Z :=
  match n with
  | O => s
  | S n' =>
      let ws := rev (sha1_extend 64 (rev (words 16 m))) in
      let '(a, b, c, d, e) := s in
      let '(a', b', c', d', e') := sha1_rounds 0 ws s in
      sha1_blocks n' (skipn 64 m) (w32 (a + a'), w32 (b + b'), w32 (c + c'), w32 (d + d'), w32 (e + e'))
  end.

Definition real_sha1 (m : bytes) : bytes :=
  let p := sha1_pad m in
  let '(a, b, c, d, e) :=
    sha1_blocks (length p / 64) p (0x67452301, 0xEFCDAB89, 0x98BADCFE, 0x10325476, 0xC3D2E1F0) in
  to_be 4 a ++ to_be 4 b ++ to_be 4 c ++ to_be 4 d ++ to_be 4 e.

(** The test vectors of the standard: "abc" and the 56-byte message. *)
Example sha1_abc :
  real_sha1 (untext "abc") =
  to_be 20 0xA9993E364706816ABA3E25717850C26C9CD0D89D.
Proof. vm_compute. reflexivity. Qed.

Example sha1_two_blocks :
  real_sha1 (untext "abcdbcdecdefdefgefghfghighijhijkijkljklmklmnlmnomnopnopq") =
  to_be 20 0x84983E441C3BD26EBAAE4AA1F95129E5E54670F1.
Proof. vm_compute. reflexivity. Qed.

(** SHA-1 alone; the certificates of the first generation need no more. *)
Definition with_sha1 : crypto := mkCrypto real_sha1 (fun _ _ => []) (fun _ _ _ _ _ _ => None).

(** ** Verification by computation *)

(** [verify_rsa] with modular exponentiation by squaring. *)
Definition verify_rsa_fast (k : crypto) (c : rsa_cert) (n e chr : bytes) : res unit * rsa_cert :=
  let raw := rsa_raw c in
  if negb (length raw =? 194)%nat then (fail, c)
  else if (length n =? 0)%nat || (length e =? 0)%nat then (fail, c)
  else if negb (if list_eq_dec Z.eq_dec (dec (be (sub raw 186 8))) chr then true else false)
  then (fail, rsa_mark c false)
  else
    let v := Zpow_mod (be (sub raw 0 128)) (be e) (be n) in
    if 256 ^ 128 <=? v then (fail, rsa_mark c false)
    else
      let sr := to_be 128 v in
      if negb (nth 0 sr 0 =? 106) then (fail, rsa_mark c false)
      else if negb (nth 127 sr 0 =? 188) then (fail, rsa_mark c false)
      else
        let content := sub sr 1 106 ++ sub raw 128 58 in
        if negb (if list_eq_dec Z.eq_dec (sub sr 107 20) (sha1 k content) then true else false)
        then (fail, rsa_mark c false)
        else
          (Ok tt, mkRsa (dec (be (sub content 20 8))) (dec (be (sub content 1 8)))
                    (Some (mkTs (be (sub content 16 4)) 0))
                    (sub content 28 128) (sub content 156 8) raw (Some true)).

Lemma verify_rsa_fast_ok k c n e chr :
  (be n =? 0) = false -> verify_rsa k c n e chr = verify_rsa_fast k c n e chr.
Proof.
  intros Hn. unfold verify_rsa, verify_rsa_fast, mod_exp. rewrite Hn.
  apply Z.eqb_neq in Hn. rewrite (Zpow_mod_correct _ _ _ Hn). reflexivity.
Qed.

(** The root (root_certificate_test.go:9-53). *)
Example conf_root :
  match unmarshal_root cert_root with
  | Ok r => text (root_key_id r) = "18250066869723594497" /\
            length (root_n r) = 128%nat /\ length (root_e r) = 8%nat
  | _ => False
  end.
Proof. vm_compute. repeat split. Qed.

Definition root_of (d : bytes) : root_cert :=
  match unmarshal_root d with Ok r => r | _ => mkRoot [] [] [] end.

(** What the tests look at: outcome, authority, holder, flag, lengths of the key. *)
Definition seen (x : res unit * rsa_cert) :=
  (fst x, text (rsa_car (snd x)), text (rsa_chr (snd x)), rsa_valid (snd x),
   length (rsa_n (snd x)), length (rsa_e (snd x)), rsa_eov (snd x)).

(** TestVerifyRsaCertificateWithRoot (rsa_verify_test.go:10-98): parse, verify
    against the root, and look.  The end of validity (2031-03-01) is also the one of
    internal/cert/certcache/index.json:1311 and :1319. *)
Lemma by_computation d r k x :
  (be (root_n r) =? 0) = false ->
  match unmarshal_rsa d with
  | Ok c => seen (verify_rsa_fast k c (root_n r) (root_e r) (root_key_id r)) = x
  | _ => False
  end ->
  exists c, unmarshal_rsa d = Ok c /\ seen (verify_rsa_with_root k c (Some r)) = x.
Proof.
  intros Hn H. destruct (unmarshal_rsa d) as [c | e | ]; [ | contradiction | contradiction].
  exists c. split; [reflexivity | ].
  change (verify_rsa_with_root k c (Some r)) with (verify_rsa k c (root_n r) (root_e r) (root_key_id r)).
  rewrite (verify_rsa_fast_ok _ _ _ _ _ Hn). exact H.
Qed.

Example conf_tcc37 :
  exists c, unmarshal_rsa cert_tcc37 = Ok c /\
    seen (verify_rsa_with_root with_sha1 c (Some (root_of cert_root))) =
    (Ok tt, "18250066869723594497", "1316820541096591105", Some true, 128%nat, 8%nat,
     Some (mkTs 1930089600 0)).
Proof. apply by_computation; vm_compute; reflexivity. Qed.

Example conf_tcc38 :
  exists c, unmarshal_rsa cert_tcc38 = Ok c /\
    seen (verify_rsa_with_root with_sha1 c (Some (root_of cert_root))) =
    (Ok tt, "18250066869723594497", "1316820541113368321", Some true, 128%nat, 8%nat,
     Some (mkTs 1930089600 0)).
Proof. apply by_computation; vm_compute; reflexivity. Qed.

(** TestVerifyRsaCertificateWithRoot_CARMismatch (rsa_verify_test.go:100-137) *)
Example conf_wrong_root :
  exists c, unmarshal_rsa cert_tcc37 = Ok c /\
    seen (verify_rsa_with_root with_sha1 c
            (Some (mkRoot (untext "99999999999999999") (root_n (root_of cert_root)) (root_e (root_of cert_root))))) =
    (fail, "18250066869723594497", "", Some false, 0%nat, 0%nat, None).
Proof. apply by_computation; vm_compute; reflexivity. Qed.

(** One changed byte of the signature is noticed. *)
Example conf_changed_signature :
  exists c, unmarshal_rsa (set_byte cert_tcc37 100 7) = Ok c /\
    seen (verify_rsa_with_root with_sha1 c (Some (root_of cert_root))) =
    (fail, "18250066869723594497", "", Some false, 0%nat, 0%nat, None).
Proof. apply by_computation; vm_compute; reflexivity. Qed.

(** The round trip and the lengths (rsa_certificate_test.go:81-161,
    ecc_certificate_test.go:169-250, root_certificate_test.go:57-86). *)
Example conf_rsa_round_trip :
  match unmarshal_rsa cert_tcc37 with
  | Ok c => append_rsa (Some c) = Ok cert_tcc37
  | _ => False
  end.
Proof. vm_compute. reflexivity. Qed.

(** TestUnmarshalEccCertificate (ecc_certificate_test.go:12-166) and the round
    trip. *)
Definition ecc_seen (d : bytes) :=
  match unmarshal_ecc d with
  | Ok c =>
      Some (ecc_cpi c, text (ecc_car c), text (ecc_chr c), length (ecc_cha c),
            option_map (fun k => (text (key_oid k), length (key_x k), length (key_y k))) (ecc_pk c),
            (ecc_from c, ecc_to c),
            option_map (fun s => (length (fst s), length (snd s))) (ecc_sig c),
            ecc_valid c,
            match append_ecc (Some c) with
            | Ok b => if list_eq_dec Z.eq_dec b d then true else false
            | _ => false
            end)
  | _ => None
  end.

Example conf_card42 :
  ecc_seen cert_card42 =
  Some (0, "18250066869740371713", "1316820541130145537", 7%nat,
        Some ("1.2.840.10045.3.1.7", 32%nat, 32%nat),
        (Some (mkTs 1710460800 0), Some (mkTs 1933977599 0)), Some (32%nat, 32%nat), None, true).
Proof. vm_compute. reflexivity. Qed.

Example conf_card43 :
  ecc_seen cert_card43 =
  Some (0, "18250066869740371713", "1316820541146922753", 7%nat,
        Some ("1.2.840.10045.3.1.7", 32%nat, 32%nat),
        (Some (mkTs 1710460800 0), Some (mkTs 1933977599 0)), Some (32%nat, 32%nat), None, true).
Proof. vm_compute. reflexivity. Qed.

(** The lengths that must be refused. *)
Example conf_lengths :
  unmarshal_ecc (zeros 203) = fail /\ unmarshal_ecc (zeros 342) = fail /\ unmarshal_ecc [] = fail /\
  unmarshal_rsa (zeros 193) = fail /\ unmarshal_rsa (zeros 195) = fail /\ unmarshal_rsa [] = fail /\
  unmarshal_root (zeros 143) = fail /\ unmarshal_root (zeros 145) = fail /\ unmarshal_root [] = fail.
Proof. vm_compute. repeat split. Qed.
