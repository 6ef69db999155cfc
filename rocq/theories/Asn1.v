(** The parts of Go's encoding/asn1 that the certificate code calls:
    asn1.Unmarshal into a RawValue and into an ObjectIdentifier.  Written from the
    documented behaviour of the standard library (go1.25, encoding/asn1/asn1.go). *)

From Verif Require Import Base.

(** asn1.go parseBase128Int: at most five bytes, minimal, at most MaxInt32. *)
Fixpoint base128 (left : nat) (first : bool) (acc : Z) (d : bytes) {struct d} : res (Z * bytes) :=
  match d with
  | [] => fail
  | b :: t =>
      match left with
      | O => fail
      | S n =>
          if first && (b =? 128) then fail
          else
            let v := acc * 128 + b mod 128 in
            if b <? 128 then (if 2147483647 <? v then fail else Ok (v, t))
            else base128 n false v t
      end
  end.

(** asn1.go parseTagAndLength, the tag: identifier octet, tag number and the
    remaining bytes. *)
Definition asn1_tag (d : bytes) : res (Z * Z * bytes) :=
  match d with
  | [] => fail
  | b :: t =>
      if b mod 32 =? 31
      then
        let* vt := base128 5 true 0 t in
        let* _ := guard (31 <=? fst vt) in
        Ok (b, fst vt, snd vt)
      else Ok (b, b mod 32, t)
  end.

(** asn1.go parseTagAndLength, the [n] length bytes of the long form. *)
Fixpoint long_length (n : nat) (acc : Z) (d : bytes) : res (Z * bytes) :=
  match n with
  | O => Ok (acc, d)
  | S m =>
      match d with
      | [] => fail
      | b :: t =>
          if 8388608 <=? acc then fail
          else
            let v := acc * 256 + b in
            if v =? 0 then fail else long_length m v t
      end
  end.

Definition asn1_length (d : bytes) : res (Z * bytes) :=
  match d with
  | [] => fail
  | b :: t =>
      if b <? 128 then Ok (b, t)
      else if b =? 128 then fail
      else
        let* lt := long_length (Z.to_nat (b - 128)) 0 t in
        let* _ := guard (128 <=? fst lt) in
        Ok lt
  end.

(** One element: identifier octet, tag number, contents, whole encoding, rest. *)
Record raw_value := mkRaw { rv_id : Z; rv_tag : Z; rv_bytes : bytes; rv_full : bytes }.

(** asn1.Unmarshal(d, *asn1.RawValue): class and the compound bit are not
    checked. *)
Definition asn1_raw (d : bytes) : res (raw_value * bytes) :=
  let* (b, tag, d1) := asn1_tag d in
  let* (n, d2) := asn1_length d1 in
  let* _ := guard (n <=? Z.of_nat (length d2)) in
  let v := firstn (Z.to_nat n) d2 in
  let rest := skipn (Z.to_nat n) d2 in
  Ok (mkRaw b tag v (firstn (length d - length rest) d), rest).

(** asn1.go parseObjectIdentifier, after the first number. *)
Fixpoint oid_tail (fuel : nat) (d : bytes) : res (list Z) :=
  match d with
  | [] => Ok []
  | _ =>
      match fuel with
      | O => fail
      | S f =>
          let* (v, t) := base128 5 true 0 d in
          let* r := oid_tail f t in
          Ok (v :: r)
      end
  end.

(** asn1.go parseObjectIdentifier.  The fuel suffices: every number takes a byte. *)
Definition parse_oid (d : bytes) : res (list Z) :=
  let* (v, t) := base128 5 true 0 d in
  let* r := oid_tail (length d) t in
  Ok (if v <? 80 then v / 40 :: v mod 40 :: r else 2 :: v - 80 :: r).

(** asn1.Unmarshal(d, *asn1.ObjectIdentifier) for a primitive element with
    identifier octet [id]: 6 without parameters, 134 with parameter "tag:6". *)
Definition asn1_oid (id : Z) (d : bytes) : res (list Z * bytes) :=
  let* (v, rest) := asn1_raw d in
  let* _ := guard (rv_id v =? id) in
  let* o := parse_oid (rv_bytes v) in
  Ok (o, rest).
