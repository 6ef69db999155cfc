(** The command line tool: cmd/tachograph/main.go. *)

From Verif Require Import Base Api.

(** The parse command.  [disk] is os.ReadFile (an error becomes the command's error),
    [show] is protojson.Format; standard output is the list of what fmt.Println is
    given, a panic leaves what has been printed before.  Nothing is assumed about
    [disk] and [show]; the file system does not change while the command runs. *)
Section Parse.
Variables (name text : Type) (cm : Z -> Z -> Z) (disk : name -> res bytes) (show : file -> text).

(** main.go:64-77, the loop *)
Fixpoint parse_loop (args : list name) : list text * res unit :=
  match args with
  | [] => ([], Ok tt)
  | a :: rest =>
      match (let* d := disk a in unmarshal_file cm d) with
      | Ok f => let '(out, r) := parse_loop rest in (show f :: out, r)
      | Err e => ([], Err e)
      | Panic => ([], Panic)
      end
  end.

(** main.go:57-79 newParseCommand; cobra.MinimumNArgs(1) *)
Definition parse_command (args : list name) : list text * res unit :=
  match args with
  | [] => ([], fail)
  | _ => parse_loop args
  end.

End Parse.
