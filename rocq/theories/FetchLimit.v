(** How the certificate tool limits its downloads: errgroup (golang.org/x/sync v0.16.0,
    errgroup/errgroup.go) as used in tools/cmd/fetch-certs/main.go:281-357 and 384-459. *)

From Verif Require Import Base FetchCerts.

(** errgroup.Group.SetLimit, called at main.go:286 and 389 with the value of the flag
    -concurrency (main.go:99): below zero there is no semaphore, else a channel with as many
    places. *)
Definition limit_of (concurrency : Z) : option nat :=
  if concurrency <? 0 then None else Some (Z.to_nat concurrency).

(** A goroutine started by Group.Go: it runs the function of main.go:291-351 or 394-453 (its
    download and then the steps that others can see), or it has left the semaphore, or it
    has called wg.Done. *)
Inductive phase := Busy (l : list step) | Freed | Gone.

(** The group and the goroutine that fills it: places taken in the semaphore, goroutines
    started, rows for which Go has not been called yet, and whether Wait has returned. *)
Record group := mkGroup { g_sem : nat; g_started : list phase; g_todo : list (list step); g_returned : bool }.

Definition new_group (rows : list (list step)) : group := mkGroup 0 [] rows false.

(** Group.Go waits for a place ([g.sem <- token{}]). *)
Definition has_place (limit : option nat) (taken : nat) : Prop :=
  match limit with None => True | Some n => (taken < n)%nat end.

Definition enter (limit : option nat) (taken : nat) : nat :=
  match limit with None => taken | Some _ => S taken end.

Definition leave (limit : option nat) (taken : nat) : nat :=
  match limit with None => taken | Some _ => Nat.pred taken end.

(** One move of one goroutine, with the step that others can see, if any.  Taking the place and
    starting the goroutine are one move: nothing waits in between.  The functions always return
    nil (main.go:291-351, 394-453), so that errors of the group do not occur, and the context of
    the group is not used (main.go:287, 390). *)
Inductive move (limit : option nat) : group -> option step -> group -> Prop :=
| M_go k ps w rest : has_place limit k ->
    move limit (mkGroup k ps (w :: rest) false) None (mkGroup (enter limit k) (ps ++ [Busy w]) rest false)
| M_work k a x l b todo r :
    move limit (mkGroup k (a ++ Busy (x :: l) :: b) todo r) (Some x) (mkGroup k (a ++ Busy l :: b) todo r)
| M_leave k a b todo r :
    move limit (mkGroup k (a ++ Busy [] :: b) todo r) None (mkGroup (leave limit k) (a ++ Freed :: b) todo r)
| M_done k a b todo r :
    move limit (mkGroup k (a ++ Freed :: b) todo r) None (mkGroup k (a ++ Gone :: b) todo r)
| M_wait k ps : Forall (fun p => p = Gone) ps ->
    move limit (mkGroup k ps [] false) None (mkGroup k ps [] true).

(** [n] moves in a row and the steps that others can see. *)
Inductive moves (limit : option nat) : nat -> group -> list step -> group -> Prop :=
| Moves_none s : moves limit 0 s [] s
| Moves_more n s o s' l t : move limit s o s' -> moves limit n s' l t ->
    moves limit (S n) s (match o with Some x => x :: l | None => l end) t.

(** Downloads at the same time: goroutines that run their function. *)
Definition downloads (s : group) : nat :=
  length (filter (fun p => match p with Busy _ => true | _ => false end) (g_started s)).
