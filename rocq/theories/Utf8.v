(** UTF-8 and trimming as in the Go standard library (unicode/utf8, bytes,
    strings).  Strings are byte lists; runes are [Z]. *)

From Verif Require Import Base.

Definition rune_error : Z := 65533.

(** Unicode scalar values. *)
Definition scalarb (r : Z) : bool :=
  ((0 <=? r) && (r <? 55296)) || ((57344 <=? r) && (r <=? 1114111)).

(** utf8.AppendRune: surrogates and out-of-range runes become U+FFFD. *)
Definition encode_rune (r : Z) : bytes :=
  let r := if scalarb r then r else rune_error in
  if r <? 128 then [r]
  else if r <? 2048 then [192 + r / 64; 128 + r mod 64]
  else if r <? 65536 then [224 + r / 4096; 128 + r / 64 mod 64; 128 + r mod 64]
  else [240 + r / 262144; 128 + r / 4096 mod 64; 128 + r / 64 mod 64; 128 + r mod 64].

Definition between (lo hi b : Z) : bool := (lo <=? b) && (b <=? hi).

(** utf8.DecodeRune: rune and width; (RuneError, 1) for an invalid sequence. *)
Definition decode_rune (l : bytes) : Z * nat :=
  match l with
  | [] => (rune_error, 0%nat)
  | b0 :: t =>
      if b0 <? 128 then (b0, 1%nat)
      else if between 194 223 b0 then
        match t with
        | b1 :: _ =>
            if between 128 191 b1 then ((b0 - 192) * 64 + (b1 - 128), 2%nat)
            else (rune_error, 1%nat)
        | _ => (rune_error, 1%nat)
        end
      else if between 224 239 b0 then
        match t with
        | b1 :: b2 :: _ =>
            if between (if b0 =? 224 then 160 else 128) (if b0 =? 237 then 159 else 191) b1
               && between 128 191 b2
            then ((b0 - 224) * 4096 + (b1 - 128) * 64 + (b2 - 128), 3%nat)
            else (rune_error, 1%nat)
        | _ => (rune_error, 1%nat)
        end
      else if between 240 244 b0 then
        match t with
        | b1 :: b2 :: b3 :: _ =>
            if between (if b0 =? 240 then 144 else 128) (if b0 =? 244 then 143 else 191) b1
               && between 128 191 b2 && between 128 191 b3
            then ((b0 - 240) * 262144 + (b1 - 128) * 4096 + (b2 - 128) * 64 + (b3 - 128), 4%nat)
            else (rune_error, 1%nat)
        | _ => (rune_error, 1%nat)
        end
      else (rune_error, 1%nat)
  end.

(** utf8.RuneStart *)
Definition rune_start (b : Z) : bool := negb (between 128 191 b).

(** utf8.DecodeLastRune: the nearest rune start within the last four bytes must
    begin a rune that ends exactly at the end. *)
Definition decode_last_rune (l : bytes) : Z * nat :=
  let n := length l in
  match n with
  | O => (rune_error, 0%nat)
  | _ =>
      let b := nth (n - 1) l 0 in
      if b <? 128 then (b, 1%nat)
      else
        let try k := (k <=? n)%nat && rune_start (nth (n - k) l 0) in
        let finish k := let '(r, s) := decode_rune (skipn (n - k) l) in
                        if (s =? k)%nat then (r, s) else (rune_error, 1%nat) in
        if try 2%nat then finish 2%nat
        else if try 3%nat then finish 3%nat
        else if try 4%nat then finish 4%nat
        else (rune_error, 1%nat)
  end.

(** The runes of the cutset "\t\n\v\f\r \x85\xA0\x00\xFF" of
    internal/dd/string_value.go:178.  Ranging over the string yields U+FFFD for
    each of the three bytes that are not valid UTF-8. *)
Definition in_cutset (r : Z) : bool :=
  existsb (Z.eqb r) [9; 10; 11; 12; 13; 32; rune_error; rune_error; 0; rune_error].

(** bytes.Trim with that cutset: trimLeftUnicode(trimRightUnicode(s)). *)
Fixpoint trim_left (fuel : nat) (l : bytes) : bytes :=
  match fuel, l with
  | S f, _ :: _ =>
      let '(r, n) := decode_rune l in
      if in_cutset r then trim_left f (skipn n l) else l
  | _, _ => l
  end.

Fixpoint trim_right (fuel : nat) (l : bytes) : bytes :=
  match fuel, l with
  | S f, _ :: _ =>
      let '(r, n) := decode_last_rune l in
      if in_cutset r then trim_right f (firstn (length l - n) l) else l
  | _, _ => l
  end.

(** internal/dd/string_value.go:176-180, trimSpaceAndZeroBytes. *)
Definition trim (l : bytes) : bytes :=
  let r := trim_right (length l) l in trim_left (length r) r.

(** utf8.ValidString *)
Fixpoint valid_utf8 (fuel : nat) (l : bytes) : bool :=
  match fuel, l with
  | S f, _ :: _ =>
      let '(r, n) := decode_rune l in
      if (r =? rune_error) && (n =? 1)%nat then false else valid_utf8 f (skipn n l)
  | _, _ => true
  end.

(** strings.ToValidUTF8(s, "�"): one replacement per run of invalid bytes.
    (The Go function copies the valid prefix first; the loop below does the
    same to it.) *)
Fixpoint to_valid (fuel : nat) (invalid : bool) (l : bytes) : bytes :=
  match fuel, l with
  | S f, _ :: _ =>
      let '(r, n) := decode_rune l in
      if (r =? rune_error) && (n =? 1)%nat
      then (if invalid then [] else [239; 191; 189]) ++ to_valid f true (skipn 1 l)
      else firstn n l ++ to_valid f false (skipn n l)
  | _, _ => []
  end.

(** The idiom [if !utf8.ValidString(s) { s = strings.ToValidUTF8(s, "�") }]
    (string_value.go:244-247, ia5_string_value.go:34-37). *)
Definition make_valid (l : bytes) : bytes :=
  if valid_utf8 (length l) l then l else to_valid (length l) false l.
