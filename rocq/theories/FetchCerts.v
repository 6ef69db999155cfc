(** The tool that fills the certificate cache (tools/cmd/fetch-certs/main.go): what it
    takes from the downloaded certificates and from the tables of the web site, the files
    it writes from concurrent workers, and the index it writes at the end. *)

From Coq Require Import Permutation Sorted.
From Verif Require Import Base DDScalar Asn1 Cert Verify.

(** ** Certificates *)

(** main.go:464-477 extractGen1CAR *)
Definition extract_gen1_car (d : bytes) : res Z :=
  let* _ := guard (length d =? 194)%nat in Ok (be (sub d 186 8)).

(** main.go:538-565 extractERCA: modulus and exponent *)
Definition extract_erca (d : bytes) : res (Z * Z) :=
  let* _ := guard (length d =? 144)%nat in
  let n := be (sub d 8 128) in
  let e := be (sub d 136 8) in
  let* _ := guard (negb ((n =? 0) || (e =? 0))) in
  Ok (n, e).

(** main.go:569-628 recoverGen1Certificate.  The recovered number is written in 128
    bytes, which is what Bytes() and the padding on lines 593-599 give unless it is too
    large.  The length check on line 618 cannot fail. *)
Definition recover_gen1 (k : crypto) (d : bytes) (n e : Z) : res bytes :=
  let* _ := guard (length d =? 194)%nat in
  let v := mod_exp (be (sub d 0 128)) e n in
  let* _ := guard (v <? 256 ^ 128) in
  let sr := to_be 128 v in
  let* _ := guard ((nth 0 sr 0 =? 106) && (nth 127 sr 0 =? 188)) in
  let c := sub sr 1 106 ++ sub d 128 58 in
  let* _ := guard (if list_eq_dec Z.eq_dec (sub sr 107 20) (sha1 k c) then true else false) in
  Ok c.

(** main.go:632-656 extractGen1CHRAndEOV: the reference and the seconds of the end of
    validity; lines 35-41 turn zero seconds into the zero time, see [show_eov]. *)
Definition extract_gen1_chr_eov (c : bytes) : res (Z * Z) :=
  let* _ := guard (length c =? 164)%nat in
  Ok (be (sub c 20 8), be (sub c 16 4)).

(** The content of an element of eight bytes as a number. *)
Definition raw_uint64 (d : bytes) : res Z :=
  let* (v, _) := asn1_raw d in
  let* _ := guard (length (rv_bytes v) =? 8)%nat in
  Ok (be (rv_bytes v)).

(** asn1.Unmarshal into a RawValue that is not looked at. *)
Definition skip_raw (d : bytes) : res bytes := let* (_, rest) := asn1_raw d in Ok rest.

(** main.go:661-696 extractGen2CAR *)
Definition extract_gen2_car (d : bytes) : res Z :=
  let* (outer, _) := asn1_raw d in
  let* (body, _) := asn1_raw (rv_bytes outer) in
  let* r1 := skip_raw (rv_bytes body) in
  raw_uint64 r1.

(** main.go:700-738 extractGen2CHR *)
Definition extract_gen2_chr (d : bytes) : res Z :=
  let* (outer, _) := asn1_raw d in
  let* (body, _) := asn1_raw (rv_bytes outer) in
  let* r1 := skip_raw (rv_bytes body) in
  let* r2 := skip_raw r1 in
  let* r3 := skip_raw r2 in
  let* r4 := skip_raw r3 in
  raw_uint64 r4.

(** ** Dates *)

(** Decimal digits of [v], [n] of them. *)
Fixpoint pad_dec (n : nat) (v : Z) : bytes :=
  match n with
  | O => []
  | S m => pad_dec m (v / 10) ++ [48 + v mod 10]
  end.

(** time.Time.Format(time.RFC3339) of a time in UTC, for years 0 to 9999. *)
Definition rfc3339 (year month day hour minute second : Z) : bytes :=
  pad_dec 4 year ++ 45 :: pad_dec 2 month ++ 45 :: pad_dec 2 day ++
  84 :: pad_dec 2 hour ++ 58 :: pad_dec 2 minute ++ 58 :: pad_dec 2 second ++ [90].

(** The date [n] days after 1 January 1970 (time.Time.Date of a time in UTC; the
    standard library computes it by another formula). *)
Definition civil (n : Z) : Z * Z * Z :=
  let z := n + 719468 in
  let era := z / 146097 in
  let doe := z mod 146097 in
  let yoe := (doe - doe / 1460 + doe / 36524 - doe / 146096) / 365 in
  let doy := doe - (365 * yoe + yoe / 4 - yoe / 100) in
  let mp := (5 * doy + 2) / 153 in
  let d := doy - (153 * mp + 2) / 5 + 1 in
  let m := if mp <? 10 then mp + 3 else mp - 9 in
  (yoe + era * 400 + (if m <=? 2 then 1 else 0), m, d).

(** main.go:35-41 and 648-653: the zero time of Go is 1 January of the year 1. *)
Definition show_eov (s : Z) : bytes :=
  if s =? 0 then rfc3339 1 1 1 0 0 0
  else let '(y, m, d) := civil (s / 86400) in
       let r := s mod 86400 in rfc3339 y m d (r / 3600) (r / 60 mod 60) (r mod 60).

Definition leap (y : Z) : bool := (y mod 4 =? 0) && (negb (y mod 100 =? 0) || (y mod 400 =? 0)).

Definition days_in (y m : Z) : Z :=
  if m =? 2 then (if leap y then 29 else 28)
  else if (m =? 4) || (m =? 6) || (m =? 9) || (m =? 11) then 30 else 31.

Definition digit (b : Z) : bool := (48 <=? b) && (b <=? 57).

(** The number a run of digits spells. *)
Definition digits_value (l : bytes) : option Z :=
  if forallb digit l then Some (fold_left (fun a b => a * 10 + (b - 48)) l 0) else None.

(** time.Parse("2006-01-02", s): four, two and two digits naming a day of the
    calendar, and nothing else. *)
Definition parse_iso_date (s : bytes) : option (Z * Z * Z) :=
  match s with
  | [y1; y2; y3; y4; h1; m1; m2; h2; d1; d2] =>
      if (h1 =? 45) && (h2 =? 45) then
        match digits_value [y1; y2; y3; y4], digits_value [m1; m2], digits_value [d1; d2] with
        | Some y, Some m, Some d =>
            if (1 <=? m) && (m <=? 12) && (1 <=? d) && (d <=? days_in y m) then Some (y, m, d) else None
        | _, _, _ => None
        end
      else None
  | _ => None
  end.

(** strings.Split for a separator of one byte. *)
Fixpoint split_on (c : Z) (s : bytes) : list bytes :=
  match s with
  | [] => [[]]
  | b :: t =>
      let r := split_on c t in
      if b =? c then [] :: r else match r with [] => [[b]] | x :: u => (b :: x) :: u end
  end.

Definition count (c : Z) (s : bytes) : nat := length (filter (Z.eqb c) s).
Definition has (c : Z) (s : bytes) : bool := existsb (Z.eqb c) s.

(** strings.HasPrefix, strings.Contains *)
Fixpoint has_prefix (p s : bytes) : bool :=
  match p, s with
  | [], _ => true
  | a :: p', b :: s' => (a =? b) && has_prefix p' s'
  | _, _ => false
  end.
Fixpoint contains (p s : bytes) : bool :=
  has_prefix p s || match s with [] => false | _ :: t => contains p t end.

(** The two functions of package strings that depend on Unicode tables:
    strings.TrimSpace and strings.ToLower. *)
Record text := mkText { trim_space : bytes -> bytes; to_lower : bytes -> bytes }.

Section Tables.
Variable tx : text.

(** main.go:869-873 isDateString *)
Definition is_date_string (s : bytes) : bool :=
  let s := trim_space tx s in
  (length s =? 10)%nat && ((count 47 s =? 2)%nat || (count 45 s =? 2)%nat).

(** main.go:876-908 parseDateString *)
Definition parse_date_string (s : bytes) : bytes :=
  let s := trim_space tx s in
  let date :=
    if has 47 s then
      match split_on 47 s with
      | [d; m; y] => y ++ 45 :: m ++ 45 :: d
      | _ => []
      end
    else if has 45 s then
      match split_on 45 s with
      | [y; _; _] => if (length y =? 4)%nat then s else []
      | _ => []
      end
    else [] in
  match parse_iso_date date with
  | Some (y, m, d) => rfc3339 y m d 0 0 0
  | None => []
  end.

(** ** The table of the web site *)

(** golang.org/x/net/html.Node: type, data, attributes, children. *)
Inductive kind := KText | KElement | KOther.
Inductive node := Node (k : kind) (data : bytes) (attrs : list (bytes * bytes)) (children : list node).

Definition eqb_bytes (a b : bytes) : bool := if list_eq_dec Z.eq_dec a b then true else false.

(** "td", "th", "tr", "a", "href", "title" *)
Definition s_td : bytes := [116; 100].
Definition s_th : bytes := [116; 104].
Definition s_tr : bytes := [116; 114].
Definition s_a : bytes := [97].
Definition s_href : bytes := [104; 114; 101; 102].
Definition s_title : bytes := [116; 105; 116; 108; 101].
(** "BIN_DT", "BIN_ST", "Download certificate file", "Download", "certificate" *)
Definition s_bin_dt : bytes := [66; 73; 78; 95; 68; 84].
Definition s_bin_st : bytes := [66; 73; 78; 95; 83; 84].
Definition s_download : bytes := [68; 111; 119; 110; 108; 111; 97; 100].
Definition s_certificate : bytes := [99; 101; 114; 116; 105; 102; 105; 99; 97; 116; 101].
Definition s_download_file : bytes := s_download ++ [32] ++ s_certificate ++ [32; 102; 105; 108; 101].

(** main.go:776-789 extractCell *)
Fixpoint cell_text (n : node) : bytes :=
  match n with
  | Node k data _ cs => (match k with KText => data | _ => [] end) ++ flat_map cell_text cs
  end.

(** main.go:845-857: what the attributes of a link give.  [all] are all attributes of the
    node, of which the rest is still to be looked at. *)
Fixpoint link_of_attrs (all rest : list (bytes * bytes)) : option bytes :=
  match rest with
  | [] => None
  | (key, v) :: t =>
      if eqb_bytes key s_href && (contains s_bin_dt v || contains s_bin_st v) then Some v
      else if eqb_bytes key s_title && contains s_download_file v then
        match find (fun a => eqb_bytes (fst a) s_href) all with
        | Some (_, w) => Some w
        | None => link_of_attrs all t
        end
      else link_of_attrs all t
  end.

(** main.go:843-866 findDownloadLink *)
Fixpoint download_link (n : node) : bytes :=
  match n with
  | Node k data attrs cs =>
      let below :=
        (fix first (l : list node) : bytes :=
           match l with
           | [] => []
           | c :: t => match download_link c with [] => first t | x => x end
           end) cs in
      match k with
      | KElement =>
          if eqb_bytes data s_a
          then match link_of_attrs attrs attrs with Some v => v | None => below end
          else below
      | _ => below
      end
  end.

(** certificateMetadata, main.go:741-746 *)
Record meta := mkMeta { me_name : bytes; me_url : bytes; me_country : bytes; me_expires : bytes }.

(** filepath.Base on Unix *)
Definition base_name (s : bytes) : bytes :=
  match s with
  | [] => [46]
  | _ =>
      match find (fun x => negb (length x =? 0)%nat) (rev (split_on 47 s)) with
      | Some x => x
      | None => [47]
      end
  end.

(** strings.TrimPrefix *)
Definition trim_prefix (p s : bytes) : bytes := if has_prefix p s then skipn (length p) s else s.

(** "iot_doc/", "erca_of_doc/" *)
Definition s_iot_doc : bytes := [105; 111; 116; 95; 100; 111; 99; 47].
Definition s_erca_doc : bytes := [101; 114; 99; 97; 95; 111; 102; 95; 100; 111; 99; 47].

(** main.go:910-921 extractCertificateName *)
Definition certificate_name (url : bytes) : bytes :=
  match split_on 61 url with
  | [] | [_] => base_name url
  | parts => trim_prefix s_erca_doc (trim_prefix s_iot_doc (last parts []))
  end.

Definition is_cell (n : node) : bool :=
  match n with Node KElement d _ _ => eqb_bytes d s_td || eqb_bytes d s_th | _ => false end.

(** main.go:794-803: the last link of the row wins. *)
Definition row_link (cells : list node) : bytes :=
  fold_left (fun l c => match download_link c with [] => l | x => x end) cells [].

(** main.go:819-834: country and expiration date *)
Definition read_cell (ce : bytes * bytes) (cell : bytes) : bytes * bytes :=
  let '(country, expires) := ce in
  if is_date_string cell then (country, parse_date_string cell)
  else if negb (length cell =? 0)%nat && negb (contains s_download cell) && (2 <? length cell)%nat
          && (length country =? 0)%nat && negb (contains s_certificate (to_lower tx cell))
  then (cell, expires)
  else (country, expires).

(** main.go:771-840 parseTableRow *)
Definition parse_row (base : bytes) (n : node) : option meta :=
  match n with
  | Node _ _ _ cs =>
      let cells := filter is_cell cs in
      let link := row_link cells in
      let texts := map (fun c => trim_space tx (cell_text c)) cells in
      if (length link =? 0)%nat || (length texts <? 3)%nat then None
      else
        let '(country, expires) := fold_left read_cell texts ([], []) in
        Some (mkMeta (certificate_name link) (base ++ 47 :: link) country expires)
  end.

(** main.go:749-768 parseCertificateTable *)
Fixpoint parse_table (base : bytes) (n : node) : list meta :=
  match n with
  | Node k data attrs cs =>
      (match k with
       | KElement =>
           if eqb_bytes data s_tr
           then match parse_row base n with Some m => [m] | None => [] end
           else []
       | _ => []
       end) ++ flat_map (parse_table base) cs
  end.

End Tables.

(** ** Downloading *)

(** CertificateEntry, main.go:71-93 *)
Record entry := mkEntry {
  en_car : bytes; en_chr : bytes; en_country : bytes; en_url : bytes; en_expires : bytes; en_path : bytes }.

(** filepath.Clean of a relative path, as its elements: [up] in front of the output
    directory stays. *)
Fixpoint clean (stack : list bytes) (parts : list bytes) : list bytes :=
  match parts with
  | [] => rev stack
  | p :: t =>
      if eqb_bytes p [] || eqb_bytes p [46] then clean stack t
      else if eqb_bytes p [46; 46] then
        match stack with
        | x :: s => if eqb_bytes x [46; 46] then clean (p :: stack) t else clean s t
        | [] => clean [p] t
        end
      else clean (p :: stack) t
  end.

Fixpoint join_slash (l : list bytes) : bytes :=
  match l with
  | [] => []
  | [x] => x
  | x :: t => x ++ 47 :: join_slash t
  end.

(** filepath.Join(dir, name); an empty result is shown as ".". *)
Definition path_join (dir name : bytes) : bytes :=
  match clean [] (split_on 47 dir ++ split_on 47 name) with
  | [] => [46]
  | l => join_slash l
  end.

(** What a worker does with a certificate it keeps: the file (relative to the output
    directory), its content, and the entry. *)
Record job := mkJob { job_path : bytes; job_data : bytes; job_entry : entry }.

(** main.go:923-948 downloadCertificate; [http] is the body of a response with status
    200, or an error. *)
Definition download (http : bytes -> res bytes) (url : bytes) (max : nat) : res bytes :=
  let* d := http url in
  let* _ := guard (negb ((0 <? length d)%nat && (nth 0 d 0 =? 60))) in
  let* _ := guard (negb (max <? length d)%nat) in
  Ok d.

Definition is_some_ok {A} (r : res A) : option A := match r with Ok a => Some a | _ => None end.

(** main.go:309 and 408: the file is named after the holder if that is known. *)
Definition file_name (chr name : bytes) : bytes :=
  (match chr with [] => name | _ => chr end) ++ bin_suffix.

(** main.go:290-350, one worker of the first generation; [None] if it only logs.  Failures
    of os.WriteFile are in FetchMain.v. *)
Definition process_gen1 (k : crypto) (http : bytes -> res bytes) (n e : Z) (m : meta) : option job :=
  match is_some_ok (let* d := download http (me_url m) 194 in let* car := extract_gen1_car d in Ok (d, car)) with
  | None => None
  | Some (d, car) =>
      let '(chr, expires) :=
        match is_some_ok (let* c := recover_gen1 k d n e in extract_gen1_chr_eov c) with
        | Some (chr, eov) => (dec chr, show_eov eov)
        | None => ([], me_expires m)
        end in
      let path := path_join dir_g1 (file_name chr (me_name m)) in
      Some (mkJob path d (mkEntry (dec car) chr (me_country m) (me_url m) expires path))
  end.

(** main.go:393-452, one worker of the second generation *)
Definition process_gen2 (http : bytes -> res bytes) (m : meta) : option job :=
  match is_some_ok (let* d := download http (me_url m) 341 in
                    let* _ := guard (negb ((length d <? 204)%nat || (341 <? length d)%nat)) in
                    let* car := extract_gen2_car d in Ok (d, car)) with
  | None => None
  | Some (d, car) =>
      let chr := match is_some_ok (extract_gen2_chr d) with Some v => dec v | None => [] end in
      let path := path_join dir_g2 (file_name chr (me_name m)) in
      Some (mkJob path d (mkEntry (dec car) chr (me_country m) (me_url m) (me_expires m) path))
  end.

(** ** Concurrent workers *)

(** The steps of a worker that others can see: os.WriteFile opens the file, truncating
    it, and then writes from its beginning; the entry is appended under the mutex. *)
Inductive step := Truncate (path : bytes) | Write (path data : bytes) | Append (e : entry).

Definition worker (o : option job) : list step :=
  match o with
  | None => []
  | Some j => [Truncate (job_path j); Write (job_path j) (job_data j); Append (job_entry j)]
  end.

Record state := mkState { st_files : bytes -> option bytes; st_entries : list entry }.

Definition update (f : bytes -> option bytes) (p d : bytes) : bytes -> option bytes :=
  fun q => if eqb_bytes p q then Some d else f q.

(** Writing at the beginning keeps what lies behind the written bytes. *)
Definition overwrite (old data : bytes) : bytes := data ++ skipn (length data) old.

Definition exec (s : state) (x : step) : state :=
  match x with
  | Truncate p => mkState (update (st_files s) p []) (st_entries s)
  | Write p d => mkState (update (st_files s) p (overwrite (odflt [] (st_files s p)) d)) (st_entries s)
  | Append e => mkState (st_files s) (st_entries s ++ [e])
  end.

Definition run (s : state) (l : list step) : state := fold_left exec l s.

(** All orders in which the workers' steps can happen; errgroup.SetLimit allows some
    of them only. *)
Inductive interleaving : list (list step) -> list step -> Prop :=
| I_done ws : Forall (fun w => w = []) ws -> interleaving ws []
| I_step a x w b l : interleaving (a ++ w :: b) l -> interleaving (a ++ (x :: w) :: b) (x :: l).

(** ** The index *)

(** Comparison of Go strings: by bytes. *)
Fixpoint string_lt (a b : bytes) : bool :=
  match a, b with
  | _, [] => false
  | [], _ :: _ => true
  | x :: a', y :: b' => if x =? y then string_lt a' b' else x <? y
  end.

(** main.go:232-256, the order of sortCertificates; [instant] is time.Parse(time.RFC3339). *)
Definition entry_less (instant : bytes -> option Z) (a b : entry) : bool :=
  if negb (eqb_bytes (en_country a) (en_country b)) then string_lt (en_country a) (en_country b)
  else match instant (en_expires a), instant (en_expires b) with
       | Some x, Some y => y <? x
       | Some _, None => true
       | None, _ => false
       end.

(** main.go:231-257 sort.Slice: a rearrangement in which no entry is less than an earlier
    one; which one of them is not determined. *)
Definition sorted_result (instant : bytes -> option Z) (l s : list entry) : Prop :=
  Permutation l s /\ StronglySorted (fun a b => entry_less instant b a = false) s.

(** What the library reads of the index (internal/cert/certcache/index.go:23-34): the
    references and the addresses. *)
Definition index_entries (s : list entry) : list (bytes * bytes) :=
  map (fun e => (en_chr e, en_url e)) s.
