(** Certificates as the authorities issue them (docs/regulation/chapters/
    16-common-security-mechanisms.md).  This is the other side of what
    internal/security reads and verifies; none of it is in the repository. *)

From Verif Require Import Base DDScalar Cert Rsa.

(** ** First generation *)

(** Certificate content, CSM_017 (lines 278-298). *)
Record g1_content := mkG1 {
  g1_cpi : bytes; g1_car : bytes; g1_cha : bytes; g1_eov : bytes; g1_chr : bytes; g1_n : bytes; g1_e : bytes }.

Definition g1_bytes (c : g1_content) : bytes :=
  g1_cpi c ++ g1_car c ++ g1_cha c ++ g1_eov c ++ g1_chr c ++ g1_n c ++ g1_e c.

Definition g1_ok (c : g1_content) : Prop :=
  length (g1_cpi c) = 1%nat /\ length (g1_car c) = 8%nat /\ length (g1_cha c) = 7%nat /\
  length (g1_eov c) = 4%nat /\ length (g1_chr c) = 8%nat /\ length (g1_n c) = 128%nat /\
  length (g1_e c) = 8%nat /\ bytes_ok (g1_bytes c).

(** CSM_018 (lines 335-342): the signature under the private key over 6A, the first
    106 bytes of the content, the hash of the content and BC; the other 58 bytes of
    the content; the reference of the authority. *)
Definition issue1 (k : crypto) (n d : Z) (c : g1_content) : bytes :=
  let cc := g1_bytes c in
  to_be 128 (be (0x6A :: firstn 106 cc ++ sha1 k cc ++ [0xBC]) ^ d mod n) ++ skipn 106 cc ++ g1_car c.

(** A key pair of 1024 bits, CSM_014 (line 266): the public key in bytes and the
    private exponent. *)
Definition g1_key (n e : bytes) (d : Z) : Prop :=
  length n = 128%nat /\ bytes_ok n /\ 2 ^ 1023 <= be n /\ e <> [] /\ bytes_ok e /\ rsa_pair (be n) (be e) d.

(** ** Second generation *)

(** CSM_135 (lines 1110-1116): tag, length in the fewest bytes, value. *)
Definition tlv (t v : bytes) : bytes :=
  let n := Z.of_nat (length v) in
  t ++ (if n <? 128 then [n] else if n <? 256 then [129; n] else [130; n / 256; n mod 256]) ++ v.

(** CSM_142: the object identifiers of the standardised domain parameters, encoded. *)
Definition domain (cv : curve) : bytes :=
  match cv with
  | BP256 => [0x2B; 0x24; 0x03; 0x03; 0x02; 0x08; 0x01; 0x01; 0x07]
  | BP384 => [0x2B; 0x24; 0x03; 0x03; 0x02; 0x08; 0x01; 0x01; 0x0B]
  | BP512 => [0x2B; 0x24; 0x03; 0x03; 0x02; 0x08; 0x01; 0x01; 0x0D]
  | NIST256 => [0x2A; 0x86; 0x48; 0xCE; 0x3D; 0x03; 0x01; 0x07]
  | NIST384 => [0x2B; 0x81; 0x04; 0x00; 0x22]
  | NIST521 => [0x2B; 0x81; 0x04; 0x00; 0x23]
  end.

(** Bytes of a coordinate on a curve. *)
Definition size (cv : curve) : nat :=
  match cv with BP256 | NIST256 => 32 | BP384 | NIST384 => 48 | BP512 => 64 | NIST521 => 66 end.

(** CSM_50: the hash that goes with the size of a key. *)
Definition hash_bits (cv : curve) : Z :=
  match cv with BP256 | NIST256 => 256 | BP384 | NIST384 => 384 | BP512 | NIST521 => 512 end.

Record g2_content := mkG2 {
  g2_cpi : bytes; g2_car : bytes; g2_cha : bytes; g2_curve : curve; g2_x : bytes; g2_y : bytes;
  g2_chr : bytes; g2_from : bytes; g2_to : bytes }.

Definition g2_ok (c : g2_content) : Prop :=
  length (g2_cpi c) = 1%nat /\ length (g2_car c) = 8%nat /\ length (g2_cha c) = 7%nat /\
  length (g2_x c) = size (g2_curve c) /\ length (g2_y c) = size (g2_curve c) /\
  length (g2_chr c) = 8%nat /\ length (g2_from c) = 4%nat /\ length (g2_to c) = 4%nat /\
  bytes_ok (g2_cpi c) /\ bytes_ok (g2_car c) /\ bytes_ok (g2_cha c) /\ bytes_ok (g2_x c) /\ bytes_ok (g2_y c) /\
  bytes_ok (g2_chr c) /\ bytes_ok (g2_from c) /\ bytes_ok (g2_to c).

(** CSM_136, Table 4 (lines 1120-1143): the body, tag and length included. *)
Definition g2_body (c : g2_content) : bytes :=
  tlv [0x7F; 0x4E]
    (tlv [0x5F; 0x29] (g2_cpi c) ++ tlv [0x42] (g2_car c) ++ tlv [0x5F; 0x4C] (g2_cha c) ++
     tlv [0x7F; 0x49] (tlv [0x06] (domain (g2_curve c)) ++ tlv [0x86] (4 :: g2_x c ++ g2_y c)) ++
     tlv [0x5F; 0x20] (g2_chr c) ++ tlv [0x5F; 0x25] (g2_from c) ++ tlv [0x5F; 0x24] (g2_to c)).

(** CSM_150 (line 1193): the certificate with the two halves of the signature. *)
Definition issue2 (c : g2_content) (r s : bytes) : bytes :=
  tlv [0x7F; 0x21] (g2_body c ++ tlv [0x5F; 0x37] (r ++ s)).

(** A signature an authority with the point [x], [y] on [cv] made for a body. *)
Definition signs (k : crypto) (cv : curve) (x y : bytes) (c : g2_content) (r s : bytes) : Prop :=
  length r = size cv /\ length s = size cv /\ bytes_ok r /\ bytes_ok s /\
  ecdsa k cv (be x) (be y) (sha2 k (hash_bits cv) (g2_body c)) (be r) (be s) = Some true.
