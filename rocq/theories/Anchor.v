(** The European root key in the memory of the process.

    internal/cert/certcache/embed.go:6-18 keeps the key in a package variable and
    hands out that very slice; UnmarshalRootCertificate
    (internal/security/root_certificate.go:44-51) puts parts of it into the message,
    and the getters of the message give them to the program.  (The bytes of a variable
    of type []byte with a go:embed directive are writable; files of an embed.FS are
    copied when they are read, so that the other certificates handed out have their
    own memory.)

    The program asks for root certificates, changes what it got, and verifies files
    with the default source.  Simplified: slices that the program has made itself are
    values, as nothing of the library depends on them. *)

From Verif Require Import Base DDScalar Cert DriverCard Vu Verify Api.

(** A field of type bytes: a part of the variable, or memory of the program. *)
Inductive part := Window (from len : nat) | Own (b : bytes).

Record root_message := mkRootMessage { rm_key : bytes; rm_modulus : part; rm_exponent : part }.

Record process := mkProcess {
  anchor : bytes;                          (** certcache.root *)
  messages : list root_message;            (** what the program has asked for *)
  verdicts : list (option file * res unit) (** the files it has verified *) }.

Definition read_part (a : bytes) (p : part) : bytes :=
  match p with Window from len => sub a from len | Own b => b end.

(** What the getters of a message give. *)
Definition read_root (a : bytes) (m : root_message) : root_cert :=
  mkRoot (rm_key m) (read_part a (rm_modulus m)) (read_part a (rm_exponent m)).

(** internal/cert/root.go:19-21, root_certificate.go:25-54 *)
Definition hand_out (a : bytes) : res root_message :=
  let* _ := guard (length a =? 144)%nat in
  Ok (mkRootMessage (dec (be (sub a 0 8))) (Window 8 128) (Window 136 8)).

(** l[i] = b; an index out of range panics in the program and is left out. *)
Definition put (l : bytes) (i : nat) (b : Z) : bytes :=
  if (i <? length l)%nat then firstn i l ++ b :: skipn (S i) l else l.

Definition write_part (a : bytes) (p : part) (i : nat) (b : Z) : bytes * part :=
  match p with
  | Window from len => if (i <? len)%nat then (put a (from + i) b, p) else (a, p)
  | Own l => (a, Own (put l i b))
  end.

(** copy(l[i:], b) *)
Fixpoint put_all (l : bytes) (i : nat) (b : bytes) : bytes :=
  match b with [] => l | x :: t => put_all (put l i x) (S i) t end.

(** append(p, b...) writes to the memory of [p] if there is room behind it; the
    variable has no room behind its end. *)
Definition extend_part (a : bytes) (p : part) (b : bytes) : bytes :=
  match p with
  | Window from len => if (from + len + length b <=? length a)%nat then put_all a (from + len) b else a
  | Own _ => a
  end.

(** The fields of type bytes. *)
Inductive which := Modulus | Exponent.

Definition get_part (m : root_message) (w : which) : part :=
  match w with Modulus => rm_modulus m | Exponent => rm_exponent m end.
Definition set_part (m : root_message) (w : which) (p : part) : root_message :=
  match w with
  | Modulus => mkRootMessage (rm_key m) p (rm_exponent m)
  | Exponent => mkRootMessage (rm_key m) (rm_modulus m) p
  end.

(** What the program does. *)
Inductive action :=
  | Ask                                   (** DefaultCertificateResolver().GetRootCertificate (cert.go:36-41) *)
  | Copy (i : nat)                        (** proto.Clone of message i *)
  | Set_key (i : nat) (key : bytes)       (** SetKeyId *)
  | Set_bytes (i : nat) (w : which) (b : bytes) (** a setter with new memory *)
  | Pass_on (i : nat) (w : which) (j : nat) (v : which) (** a setter with the slice another getter gave *)
  | Poke (i : nat) (w : which) (at_ : nat) (b : Z) (** writing to a slice that a getter gave *)
  | Extend (i : nat) (w : which) (b : bytes) (** append to a slice that a getter gave *)
  | Check (f : option file).              (** VerifyFile with the default source (verify.go:42-67) *)

Fixpoint change_nth {X} (l : list X) (i : nat) (f : X -> X) : list X :=
  match l, i with
  | [], _ => []
  | x :: t, O => f x :: t
  | x :: t, S j => x :: change_nth t j f
  end.

Section Run.
Variables (k : crypto) (g1 g2 : list (bytes * bytes)) (http : bytes -> res bytes) (ix : cert_index).

(** The default source as long as the variable is [a]. *)
Definition source_now (a : bytes) : resolver := default_resolver (mkFiles a g1 g2) http ix.

Definition act (s : process) (x : action) : process :=
  match x with
  | Ask =>
      match hand_out (anchor s) with
      | Ok m => mkProcess (anchor s) (messages s ++ [m]) (verdicts s)
      | _ => s
      end
  | Copy i =>
      match nth_error (messages s) i with
      | Some m => mkProcess (anchor s)
          (messages s ++ [mkRootMessage (rm_key m) (Own (read_part (anchor s) (rm_modulus m))) (Own (read_part (anchor s) (rm_exponent m)))])
          (verdicts s)
      | None => s
      end
  | Set_key i key =>
      mkProcess (anchor s) (change_nth (messages s) i (fun m => mkRootMessage key (rm_modulus m) (rm_exponent m))) (verdicts s)
  | Set_bytes i w b =>
      mkProcess (anchor s) (change_nth (messages s) i (fun m => set_part m w (Own b))) (verdicts s)
  | Pass_on i w j v =>
      match nth_error (messages s) j with
      | Some mj => mkProcess (anchor s) (change_nth (messages s) i (fun m => set_part m w (get_part mj v))) (verdicts s)
      | None => s
      end
  | Poke i w at_ b =>
      match nth_error (messages s) i with
      | Some m =>
          let '(a, p) := write_part (anchor s) (get_part m w) at_ b in
          mkProcess a (change_nth (messages s) i (fun m => set_part m w p)) (verdicts s)
      | None => s
      end
  | Extend i w b =>
      match nth_error (messages s) i with
      | Some m => mkProcess (extend_part (anchor s) (get_part m w) b) (messages s) (verdicts s)
      | None => s
      end
  | Check f =>
      mkProcess (anchor s) (messages s) (verdicts s ++ [(f, fst (verify_file k (source_now (anchor s)) f))])
  end.

Definition run_program (a : bytes) (xs : list action) : process := fold_left act xs (mkProcess a [] []).
End Run.
