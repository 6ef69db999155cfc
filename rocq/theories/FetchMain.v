(** A whole run of the tool that fills the certificate cache (tools/cmd/fetch-certs/main.go),
    with everything that can fail, and what it leaves on disk. *)

From Coq Require Import String Permutation Sorted.
From Verif Require Import Base DDScalar Asn1 Cert Verify FetchCerts.
Local Open Scope list_scope.

(** ** The disk *)

(** CertificateIndex, main.go:40-68, without the time of creation. *)
Record saved_index := mkSaved { sx_root : entry; sx_g1 : list entry; sx_g2 : list entry }.

(** Files of the output directory by their relative path, and index.json: not there, not
    written to its end ([Some None]), or with an index.  JSON is not modelled. *)
Record disk := mkDisk { dk_files : bytes -> option bytes; dk_index : option (option saved_index) }.

Inductive action := Remove (p : bytes) | Act (x : step) | IndexTruncate | IndexWrite (i : saved_index).

(** Truncating and writing as in [exec] of FetchCerts.v; entries are kept in memory. *)
Definition do_action (d : disk) (a : action) : disk :=
  match a with
  | Remove p => mkDisk (fun q => if eqb_bytes p q then None else dk_files d q) (dk_index d)
  | Act x => mkDisk (st_files (exec (mkState (dk_files d) []) x)) (dk_index d)
  | IndexTruncate => mkDisk (dk_files d) (Some None)
  | IndexWrite i => mkDisk (dk_files d) (Some (Some i))
  end.

Definition after (d : disk) (l : list action) : disk := fold_left do_action l d.

(** ** What comes from outside *)

(** Pages are parsed HTML, or an error of the request, of its status or of the parser; the
    root is what EC_PK.bin of the downloaded ZIP holds (main.go:481-531), or an error. *)
Record outside := mkOutside {
  o_crypto : crypto; o_text : text; o_instant : bytes -> option Z;
  o_root : res bytes; o_page : bytes -> res node; o_http : bytes -> res bytes }.

Definition txt (s : string) : bytes := map (fun c => Z.of_nat (Ascii.nat_of_ascii c)) (list_ascii_of_string s).

Definition root_path : bytes := txt "root/EC_PK.bin".

(** main.go:192-208: what filepath.Glob(dir/*.bin) matches, for an output directory without
    the characters that mean something in a pattern. *)
Definition matched (p : bytes) : Prop :=
  exists dir name, In dir [txt "root"; txt "g1"; txt "g2"] /\ ~ In 47 name /\ p = dir ++ [47] ++ name ++ txt ".bin".

(** main.go:183-210 createDirectoryStructure, when nothing fails.  The order, by
    directory and name, is left open. *)
Definition cleaning (d : disk) (l : list action) : Prop :=
  exists ps, l = map Remove ps /\ NoDup ps /\ forall p, In p ps <-> matched p /\ dk_files d p <> None.

(** os.WriteFile that succeeds, and one that fails: the file is not opened, or only the
    first bytes are written. *)
Definition full_write (p d : bytes) : list step := [Truncate p; Write p d].
Definition torn (p d : bytes) (l : list step) : Prop := l = [] \/ exists n, l = [Truncate p; Write p (firstn n d)].

(** main.go:290-350, 393-452: a worker that has a certificate keeps it, or only logs that it
    could not be saved. *)
Inductive worker_run : option job -> list step -> Prop :=
| W_none : worker_run None []
| W_kept j : worker_run (Some j) (worker (Some j))
| W_failed j l : torn (job_path j) (job_data j) l -> worker_run (Some j) l.

(** All workers of a generation: the steps [l] *)
Definition workers_run (jobs : list (option job)) (l : list step) : Prop :=
  exists ws, Forall2 worker_run jobs ws /\ interleaving ws l.

(** Entries in the order in which they were appended *)
Definition appended (l : list step) : list entry := flat_map (fun x => match x with Append e => [e] | _ => [] end) l.

Inductive ending := Success | Failure.

Section Main.
Context (o : outside) (base : bytes).

Definition page_g1 : bytes := base ++ txt "/dtc_public_key_certificates_dt.php.html".
Definition page_g2 : bytes := base ++ txt "/dtc_public_key_certificates_st.php.html".

(** main.go:122-139: the root in the index, named by its first eight bytes *)
Definition root_entry (b : bytes) : entry :=
  let id := dec (if (8 <=? length b)%nat then be (firstn 8 b) else 0) in
  mkEntry id id [] (txt "https://dtc.jrc.ec.europa.eu/erca_of_doc/EC_PK.zip") [] root_path.

(** main.go:259-289, 369-392 *)
Definition jobs_g1 (n e : Z) (page : node) : list (option job) :=
  map (process_gen1 (o_crypto o) (o_http o) n e) (parse_table (o_text o) base page).
Definition jobs_g2 (page : node) : list (option job) :=
  map (process_gen2 (o_http o)) (parse_table (o_text o) base page).

(** main.go:95-179 main, 213-228 downloadAndSaveRootCertificate and 950-966 writeIndexFile.
    A failure ends the run with log.Fatalf.  Failures of os.MkdirAll, filepath.Glob and
    os.Remove are those of [R_clean]: some of the files are removed. *)
Inductive ran (d : disk) : list action -> ending -> Prop :=
| R_clean c l : cleaning d (l ++ c) -> ran d l Failure
| R_root c : cleaning d c -> is_some_ok (o_root o) = None -> ran d c Failure
| R_root_torn c b l : cleaning d c -> o_root o = Ok b -> torn root_path b l -> ran d (c ++ map Act l) Failure
| R_key c b : cleaning d c -> o_root o = Ok b -> is_some_ok (extract_erca b) = None ->
    ran d (c ++ map Act (full_write root_path b)) Failure
| R_page1 c b n e : cleaning d c -> o_root o = Ok b -> extract_erca b = Ok (n, e) -> is_some_ok (o_page o page_g1) = None ->
    ran d (c ++ map Act (full_write root_path b)) Failure
| R_page2 c b n e p1 l1 : cleaning d c -> o_root o = Ok b -> extract_erca b = Ok (n, e) -> o_page o page_g1 = Ok p1 ->
    workers_run (jobs_g1 n e p1) l1 -> is_some_ok (o_page o page_g2) = None ->
    ran d (c ++ map Act (full_write root_path b ++ l1)) Failure
| R_index c b n e p1 l1 p2 l2 l : cleaning d c -> o_root o = Ok b -> extract_erca b = Ok (n, e) -> o_page o page_g1 = Ok p1 ->
    workers_run (jobs_g1 n e p1) l1 -> o_page o page_g2 = Ok p2 -> workers_run (jobs_g2 p2) l2 ->
    l = [] \/ l = [IndexTruncate] ->
    ran d (c ++ map Act (full_write root_path b ++ l1 ++ l2) ++ l) Failure
| R_done c b n e p1 l1 p2 l2 s1 s2 : cleaning d c -> o_root o = Ok b -> extract_erca b = Ok (n, e) -> o_page o page_g1 = Ok p1 ->
    workers_run (jobs_g1 n e p1) l1 -> o_page o page_g2 = Ok p2 -> workers_run (jobs_g2 p2) l2 ->
    sorted_result (o_instant o) (appended l1) s1 -> sorted_result (o_instant o) (appended l2) s2 ->
    ran d (c ++ map Act (full_write root_path b ++ l1 ++ l2) ++ [IndexTruncate; IndexWrite (mkSaved (root_entry b) s1 s2)]) Success.

End Main.
