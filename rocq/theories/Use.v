(** How vehicle units fill the activities of a card in use.

    Not code but specification: docs/regulation/chapters/03-data-dictionary.md:515-537
    (CardActivityDailyRecord) and 654-668 (CardDriverActivity).  Everything the vehicle
    unit needs to know it reads from the card.  Simplified: a day starts with its date,
    presence counter and distance, which do not change later, and gets one activity
    change after the other. *)

From Verif Require Import Base.

(** Line 668: the string is filled cyclically, "independently of a break being inside a
    data element". *)
Definition set_ring (buf : bytes) (p : nat) (b : Z) : bytes :=
  let i := (p mod length buf)%nat in firstn i buf ++ b :: skipn (i + 1) buf.

Fixpoint put (buf : bytes) (p : nat) (bs : bytes) : bytes :=
  match bs with
  | [] => buf
  | b :: t => put (set_ring buf p b) (p + 1) t
  end.

Definition get_ring (buf : bytes) (p : nat) : Z := nth (p mod length buf) buf 0.

(** Lines 522 and 530: the length of the record that starts at [p]. *)
Definition size_at (buf : bytes) (p : nat) : nat :=
  Z.to_nat (256 * get_ring buf (p + 2) + get_ring buf (p + 3)).

(** Lines 662-666: the string and the two pointers. *)
Record store := mkStore { s_buf : bytes; s_oldest : nat; s_newest : nat }.

Definition room (s : store) : nat := length (s_buf s).

(** The bytes from the oldest record to the end of the newest. *)
Definition used (s : store) : nat :=
  ((s_newest s + room s - s_oldest s) mod room s + size_at (s_buf s) (s_newest s))%nat.

(** Line 668: the pointer is moved to the next record, whose length of the previous
    record is set to zero. *)
Definition drop_oldest (s : store) : store :=
  let p := ((s_oldest s + size_at (s_buf s) (s_oldest s)) mod room s)%nat in
  mkStore (put (s_buf s) p [0; 0]) p (s_newest s).

Fixpoint make_room (fuel need : nat) (s : store) : store :=
  match fuel with
  | O => s
  | S f => if (used s + need <=? room s)%nat then s else make_room f need (drop_oldest s)
  end.

(** A record: length of the previous one, its own, date, presence counter and distance
    (8 bytes), changes. *)
Definition start_day (s : store) (b : bytes) : store :=
  let s := make_room (room s) 12 s in
  let l := size_at (s_buf s) (s_newest s) in
  let p := (s_newest s + l)%nat in
  mkStore (put (s_buf s) p (to_be 2 (Z.of_nat l) ++ to_be 2 12 ++ b)) (s_oldest s) (p mod room s).

(** Line 668, "enlarging current activityDailyRecord". *)
Definition add_change (s : store) (v : Z) : store :=
  let s := make_room (room s) 2 s in
  let l := size_at (s_buf s) (s_newest s) in
  let buf := put (s_buf s) (s_newest s + l) (to_be 2 v) in
  mkStore (put buf (s_newest s + 2) (to_be 2 (Z.of_nat (l + 2)))) (s_oldest s) (s_newest s).

Inductive usage := Day (b : bytes) | Change (v : Z).

(** "At the first use storing is started at the first byte of the string." *)
Definition write (buf : bytes) (o : option store) (u : usage) : option store :=
  match o, u with
  | None, Day b => Some (mkStore (put buf 0 (to_be 2 0 ++ to_be 2 12 ++ b)) 0 0)
  | None, Change _ => None
  | Some s, Day b => Some (start_day s b)
  | Some s, Change v => Some (add_change s v)
  end.

Definition use (buf : bytes) (us : list usage) : option store := fold_left (write buf) us None.

(** The file EF_Driver_Activity_Data. *)
Definition file_of (s : store) : bytes :=
  to_be 2 (Z.of_nat (s_oldest s)) ++ to_be 2 (Z.of_nat (s_newest s)) ++ s_buf s.
