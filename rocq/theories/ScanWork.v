(** bufio.Scanner with its work counted: calls of the split function, bytes copied
    and bytes allocated.

    The rounds are those of Scanner.v (bufio/scan.go of the Go standard library, used at
    internal/card/rawcardfile.go:14-29, internal/card/events.go:46-93,
    internal/card/faults.go:46-94, internal/card/gnss_places.go:86-110 and
    internal/card/vehicle_units_used.go:88-113); what the callers do with a token is
    not counted. *)

From Verif Require Import Base Enums Chunks Scanner RawTypes RawCard DriverCard.

Record work := mkWork { calls : nat; copied : nat; allocated : nat }.

Definition no_work : work := mkWork 0 0 0.

Definition and_then (a b : work) : work :=
  mkWork (calls a + calls b) (copied a + copied b) (allocated a + allocated b).

(** bufio/scan.go, Scan: [copy(s.buf, s.buf[s.start:s.end])] is done under this condition only. *)
Definition shift_work (s : scanner) : work :=
  if (0 <? sc_start s)%nat &&
     ((sc_end s =? length (sc_buf s))%nat || (length (sc_buf s) / 2 <? sc_start s)%nat)
  then mkWork 0 (sc_end s - sc_start s) 0 else no_work.

(** bufio/scan.go, Scan: [newBuf := make([]byte, newSize)] and [copy(newBuf, s.buf[s.start:s.end])];
    a buffer that stays takes nothing, and neither does ErrTooLong. *)
Definition grow_work (s : scanner) : work :=
  match grow s with
  | Some s' =>
      if (sc_end s =? length (sc_buf s))%nat
      then mkWork 0 (sc_end s - sc_start s) (length (sc_buf s')) else no_work
  | None => no_work
  end.

(** bytes.Reader.Read copies what it delivers. *)
Definition read_work (s : scanner) : work :=
  mkWork 0 (length (sc_rest s) - length (sc_rest (read s))) 0.

(** The work of one round of the loop in Scan. *)
Definition round_work (split : split_func) (s : scanner) : work :=
  let asked := (sc_start s <? sc_end s)%nat || sc_eof s in
  and_then (if asked then mkWork 1 0 0 else no_work)
    (match (if asked then split (window s) (sc_eof s) else SMore) with
     | SMore =>
         if sc_eof s then no_work
         else
           and_then (shift_work s) (and_then (grow_work (shift s))
             match grow (shift s) with
             | None => no_work
             | Some s' => read_work s'
             end)
     | _ => no_work
     end).

(** [for sc.Scan() { ... }] with the work of all rounds. *)
Fixpoint loop_work (fuel : nat) (split : split_func) (s : scanner) : work * (list token * res unit * scanner) :=
  match fuel with
  | O => (no_work, ([], Panic, s))
  | S f =>
      match scan_step split s with
      | Emit t s' =>
          match loop_work f split s' with
          | (w, (ts, r, s'')) => (and_then (round_work split s) w, (t :: ts, r, s''))
          end
      | More s' => let '(w, o) := loop_work f split s' in (and_then (round_work split s) w, o)
      | Done r s' => (round_work split s, ([], r, s'))
      end
  end.

Definition scan_work (split : split_func) (data : bytes) : work * (list token * res unit * scanner) :=
  loop_work (2 * length data + 2) split (mkScan [] 0 0 data false []).

(** The scanners that the readers of elementary files use for their contents: events.go:46-93,
    faults.go:46-94 (records of 24 bytes), gnss_places.go:37-110 (18) and
    vehicle_units_used.go:39-113 (10); the other readers use none.  Contents that are refused
    before they are scanned are counted as if they were scanned. *)
Definition content_work (r : raw_record) : work :=
  match route (rr_file r) (rr_generation r) with
  | Ok (Some (S_events | S2_events | S_faults | S2_faults)) => fst (scan_work (split_fixed 24) (rr_value r))
  | Ok (Some S2_gnss) => fst (scan_work (split_fixed 18) (skipn 2 (rr_value r)))
  | Ok (Some S2_units) => fst (scan_work (split_fixed 10) (skipn 2 (rr_value r)))
  | _ => no_work
  end.

(** All scanning for a card file: rawcardfile.go:14-29 and, for its records,
    driver_card_file.go:46-621 (as if every record was reached and was one of data). *)
Definition card_work (d : bytes) : work :=
  and_then (fst (scan_work scan_card_file d))
    match unmarshal_raw_card_file d with
    | Ok rs => fold_right (fun r w => and_then (content_work r) w) no_work rs
    | _ => no_work
    end.
