(** Goroutines that write a card message while others verify it, with one source of
    certificates or several: the steps of [VerifyAtOnce] and those of MarshalFile
    (internal/card/driver_card_file.go:625-827 appendDriverCard).  Writing one
    elementary file is one step; of the certificates, which are all that verification
    changes, the writer reads the field raw_data only. *)

From Verif Require Import Base DDScalar Cert DriverCard Verify VerifyShared VerifyAtOnce.

Inductive goroutine :=
  | Verifies (r : resolver) (p : stage)
  | Writes (rest : list (slot * style)) (out : bytes) (** what is left to write, and the bytes so far *)
  | Written (o : res bytes).

(** driver_card_file.go:625-827, one file *)
Definition write_on (d : driver_card) (rest : list (slot * style)) (out : bytes) : goroutine :=
  match rest with
  | [] => Written (Ok out)
  | p :: rest =>
      match write_slot d p with
      | Ok b => Writes rest (out ++ b)
      | Err e => Written (Err e)
      | Panic => Written Panic
      end
  end.

Definition step_of (k : crypto) (d : driver_card) (g : goroutine) : driver_card * goroutine :=
  match g with
  | Verifies r p => let '(d', p') := go_on k r d p in (d', Verifies r p')
  | Writes rest out => (d, write_on d rest out)
  | Written o => (d, g)
  end.

Definition turn_of (k : crypto) (s : driver_card * list goroutine) (i : nat) : driver_card * list goroutine :=
  let '(d, gs) := s in
  match nth_error gs i with
  | None => s
  | Some g => let '(d', g') := step_of k d g in (d', update gs i g')
  end.

(** What a goroutine is to do: write, or verify with a source. *)
Definition begin (o : option resolver) : goroutine :=
  match o with Some r => Verifies r Look | None => Writes marshal_order [] end.

Definition together (k : crypto) (c : driver_card) (tasks : list (option resolver)) (turns : list nat)
  : driver_card * list goroutine :=
  fold_left (turn_of k) turns (c, map begin tasks).
