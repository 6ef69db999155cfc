(** The JSON rendering of messages by protojson, enough of it to compare the
    model with the outputs recorded in /repo/internal/card/testdata.

    Nothing here models /repo: protojson belongs to google.golang.org/protobuf.
    The field names are the json names of the proto files, a field without value
    is left out, 64-bit integers are strings, bytes are base64, timestamps are
    RFC 3339 and enumerations are their value names. *)

From Coq Require Import String Ascii.
From Verif Require Import Base Enums DDScalar Chunks Utf8 DDString DDRecord CardBasic CardIdent CardRecords.
Local Open Scope list_scope.

Inductive json :=
| JN (z : Z) | JB (b : bool) | JS (s : string)
| JO (l : list (string * json)) | JA (l : list json).

(** Without the raw data and signatures at any depth: most golden files were
    written by anonymisers that drop them. *)
Fixpoint strip (j : json) : json :=
  match j with
  | JO l =>
      JO ((fix go (l : list (string * json)) : list (string * json) :=
             match l with
             | [] => []
             | (k, v) :: t =>
                 if (String.eqb k "rawData" || String.eqb k "signature")%bool then go t
                 else (k, strip v) :: go t
             end) l)
  | JA l => JA (map strip l)
  | _ => j
  end.

(** ** Texts *)

Fixpoint text (l : bytes) : string :=
  match l with
  | [] => EmptyString
  | b :: t => String (ascii_of_N (Z.to_N b)) (text t)
  end.

Fixpoint untext (s : string) : bytes :=
  match s with
  | EmptyString => []
  | String a t => Z.of_N (N_of_ascii a) :: untext t
  end.

(** The base64 alphabet. *)
Definition b64_char (v : Z) : Z :=
  if v <? 26 then 65 + v
  else if v <? 52 then 71 + v
  else if v <? 62 then v - 4
  else if v =? 62 then 43 else 47.

Definition b64_value (c : Z) : Z :=
  if (65 <=? c) && (c <=? 90) then c - 65
  else if (97 <=? c) && (c <=? 122) then c - 71
  else if (48 <=? c) && (c <=? 57) then c + 4
  else if c =? 43 then 62 else 63.

Fixpoint b64_encode (l : bytes) : bytes :=
  match l with
  | a :: b :: c :: t =>
      let v := (a * 256 + b) * 256 + c in
      b64_char (v / 262144) :: b64_char (v / 4096 mod 64) ::
      b64_char (v / 64 mod 64) :: b64_char (v mod 64) :: b64_encode t
  | [a; b] =>
      let v := (a * 256 + b) * 4 in
      [b64_char (v / 4096); b64_char (v / 64 mod 64); b64_char (v mod 64); 61]
  | [a] => let v := a * 16 in [b64_char (v / 64); b64_char (v mod 64); 61; 61]
  | [] => []
  end.

Fixpoint b64_decode (l : bytes) : bytes :=
  match l with
  | a :: b :: c :: d :: t =>
      let v := ((b64_value a * 64 + b64_value b) * 64 + b64_value c) * 64 + b64_value d in
      if c =? 61 then [b64_value a * 4 + b64_value b / 16]
      else if d =? 61 then [b64_value a * 4 + b64_value b / 16;
                            b64_value b mod 16 * 16 + b64_value c / 4]
      else (v / 65536) :: (v / 256 mod 256) :: (v mod 256) :: b64_decode t
  | _ => []
  end.

Definition of_b64 (s : string) : bytes := b64_decode (untext s).

(** Decimal with at least [n] digits. *)
Fixpoint digits_n (n : nat) (v : Z) : bytes :=
  match n with
  | O => []
  | S n' => digits_n n' (v / 10) ++ [48 + v mod 10]
  end.

(** Days since 1970-01-01 to year, month and day of the Gregorian calendar. *)
Definition civil (days : Z) : Z * Z * Z :=
  let z := days + 719468 in
  let era := z / 146097 in
  let doe := z - era * 146097 in
  let yoe := (doe - doe / 1460 + doe / 36524 - doe / 146096) / 365 in
  let doy := doe - (365 * yoe + yoe / 4 - yoe / 100) in
  let mp := (5 * doy + 2) / 153 in
  let d := doy - (153 * mp + 2) / 5 + 1 in
  let m := if mp <? 10 then mp + 3 else mp - 9 in
  (yoe + era * 400 + (if m <=? 2 then 1 else 0), m, d).

Definition rfc3339 (s : Z) : string :=
  let '(y, m, d) := civil (s / 86400) in
  let r := s mod 86400 in
  text (digits_n 4 y ++ [45] ++ digits_n 2 m ++ [45] ++ digits_n 2 d ++ [84] ++
        digits_n 2 (r / 3600) ++ [58] ++ digits_n 2 (r / 60 mod 60) ++ [58] ++
        digits_n 2 (r mod 60) ++ [90]).

(** ** Fields *)

Definition field := list (string * json).

Definition num (k : string) (v : Z) : field := [(k, JN v)].
Definition flag (k : string) (b : bool) : field := [(k, JB b)].
Definition raw (k : string) (b : bytes) : field := [(k, JS (text (b64_encode b)))].
Definition str (k : string) (b : bytes) : field := [(k, JS (text b))].
Definition opt {A} (f : A -> field) (o : option A) : field :=
  match o with None => [] | Some a => f a end.
Definition ne_raw (k : string) (b : bytes) : field := match b with [] => [] | _ => raw k b end.
Definition msg {A} (k : string) (f : A -> json) (o : option A) : field :=
  opt (fun a => [(k, f a)]) o.
Definition time (k : string) (o : option timestamp) : field :=
  opt (fun t => [(k, JS (rfc3339 (ts_seconds t)))]) o.
Definition many {A} (k : string) (f : A -> json) (l : list A) : field :=
  match l with [] => [] | _ => [(k, JA (map f l))] end.

(** Enumeration names: (number, name). *)
Definition names := list (Z * string).
Fixpoint name_of (T : names) (v : Z) : string :=
  match T with
  | [] => "?"
  | (n, s) :: t => if n =? v then s else name_of t v
  end.
Definition enum (k : string) (T : names) (v : Z) : field := [(k, JS (name_of T v))].
