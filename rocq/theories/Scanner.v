(** bufio.Scanner (Go standard library, bufio/scan.go) over a bytes.Reader.

    The buffer, its growth and the shifting of unread data are modelled because
    callers keep slices into the buffer.  A split function here always returns a
    prefix of its input as token and advances by its length, as all split
    functions of the code do. *)

From Verif Require Import Base.

(** What a SplitFunc answers: request more data, a token (and advance) of [n]
    bytes, an error, or a panic. *)
Inductive split_result := SMore | STok (n : nat) | SErr (e : err).

Definition split_func := bytes -> bool -> split_result.

Record scanner := mkScan {
  sc_buf : bytes;          (* s.buf *)
  sc_start : nat;          (* s.start *)
  sc_end : nat;            (* s.end *)
  sc_rest : bytes;         (* what the reader has not delivered yet *)
  sc_eof : bool;           (* s.err = io.EOF *)
  sc_old : list bytes      (* buffers abandoned by growth, oldest first *)
}.

(** A token as handed out: its bytes at that moment, and where it lives (number
    of the buffer, offset). *)
Record token := mkTok { tok_bytes : bytes; tok_buf : nat; tok_off : nat }.

Definition start_buf_size : nat := 4096.
Definition max_token_size : nat := 4096 * 16.

Inductive step :=
| Emit (t : token) (s : scanner)   (* Scan returns true *)
| More (s : scanner)               (* next round of the loop in Scan *)
| Done (r : res unit) (s : scanner). (* Scan returns false; what Err() says *)

Definition window (s : scanner) : bytes := sub (sc_buf s) (sc_start s) (sc_end s - sc_start s).

(** [copy(s.buf, s.buf[s.start:s.end])] if there is lots of empty space or space
    is needed. *)
Definition shift (s : scanner) : scanner :=
  if (0 <? sc_start s)%nat &&
     ((sc_end s =? length (sc_buf s))%nat || (length (sc_buf s) / 2 <? sc_start s)%nat)
  then mkScan (copy_into (sc_buf s) 0 (length (sc_buf s)) (window s))
         0 (sc_end s - sc_start s) (sc_rest s) (sc_eof s) (sc_old s)
  else s.

(** Is the buffer full?  If so, resize (None: ErrTooLong). *)
Definition grow (s : scanner) : option scanner :=
  if (sc_end s =? length (sc_buf s))%nat then
    if (max_token_size <=? length (sc_buf s))%nat then None
    else
      let size := Nat.min (if (length (sc_buf s) =? 0)%nat then start_buf_size
                           else length (sc_buf s) * 2) max_token_size in
      Some (mkScan (copy_into (zeros size) 0 size (window s))
              0 (sc_end s - sc_start s) (sc_rest s) (sc_eof s) (sc_old s ++ [sc_buf s]))
  else Some s.

(** One read from bytes.Reader into [s.buf[s.end:]]. *)
Definition read (s : scanner) : scanner :=
  match sc_rest s with
  | [] => mkScan (sc_buf s) (sc_start s) (sc_end s) [] true (sc_old s)
  | _ =>
      let n := Nat.min (length (sc_buf s) - sc_end s) (length (sc_rest s)) in
      mkScan (copy_into (sc_buf s) (sc_end s) (sc_end s + n) (firstn n (sc_rest s)))
        (sc_start s) (sc_end s + n) (skipn n (sc_rest s)) (sc_eof s) (sc_old s)
  end.

(** One round of the loop in Scanner.Scan. *)
Definition scan_step (split : split_func) (s : scanner) : step :=
  match (if (sc_start s <? sc_end s)%nat || sc_eof s
         then split (window s) (sc_eof s) else SMore) with
  | SErr e => Done (Err e) s
  | STok n =>
      Emit (mkTok (firstn n (window s)) (length (sc_old s)) (sc_start s))
        (mkScan (sc_buf s) (sc_start s + n) (sc_end s) (sc_rest s) (sc_eof s) (sc_old s))
  | SMore =>
      if sc_eof s
      then Done (Ok tt) (mkScan (sc_buf s) 0 0 (sc_rest s) (sc_eof s) (sc_old s))
      else
        match grow (shift s) with
        | None => Done (Err ETooLong) s
        | Some s' => More (read s')
        end
  end.

(** [for sc.Scan() { ... }]: all tokens, the final Err(), the final state.  The
    result [Panic] marks exhausted fuel; P_Scanner shows it does not occur. *)
Fixpoint scan_loop (fuel : nat) (split : split_func) (s : scanner)
  : list token * res unit * scanner :=
  match fuel with
  | O => ([], Panic, s)
  | S f =>
      match scan_step split s with
      | Emit t s' =>
          match scan_loop f split s' with
          | (ts, r, s'') => (t :: ts, r, s'')
          end
      | More s' => scan_loop f split s'
      | Done r s' => ([], r, s')
      end
  end.

Definition scan (split : split_func) (data : bytes) : list token * res unit * scanner :=
  scan_loop (2 * length data + 2) split (mkScan [] 0 0 data false []).

(** The bytes a token's slice shows after scanning has finished. *)
Definition observe (s : scanner) (t : token) : bytes :=
  sub (nth (tok_buf t) (sc_old s ++ [sc_buf s]) []) (tok_off t) (length (tok_bytes t)).

(** The fixed-size split functions: internal/card/events.go:35-44,
    faults.go:35-44, gnss_places.go:72-83, vehicle_units_used.go:74-85. *)
Definition split_fixed (n : nat) : split_func :=
  fun data _ => if (length data <? n)%nat then SMore else STok n.

(** Whole fixed-size records of a file: [(bytes now, bytes finally seen)]. *)
Definition scan_fixed (n : nat) (data : bytes) : res (list (bytes * bytes)) :=
  match scan (split_fixed n) data with
  | (ts, r, s) => let* _ := r in Ok (map (fun t => (tok_bytes t, observe s t)) ts)
  end.
