# Formal model of tachograph-go

The model is in `rocq/theories`. Each definition cites the Go file and lines it
models. `properties.jsonl` lists the properties; `MANIFEST.json` maps them to
theorems; `seeded/LOG.jsonl` records mutation tests of the theorems.

## Modelling conventions

* A byte is a `Z`; `bytes_ok l` says all elements are in 0..255. Input theorems
  assume `bytes_ok` of the input (a Go `[]byte` always satisfies it).
* A Go call returns `Ok v`, `Err e` or `Panic`. Every slice or index expression
  in the Go source whose bound is not syntactically guarded is a checked
  operation that yields `Panic`. Slices passed in by the caller are assumed to
  have capacity equal to their length.
* A protobuf message is a record. Optional scalars, sub-messages and byte
  fields with presence are `option`. Getter defaults (0, nil, "") are explicit.
* Fixed-width Go arithmetic is `mod 2^k` where it can wrap; `int` is unbounded
  (C108 shows that this is exact with 64 bits; Width models 32 bits too).
* Error messages are not modelled, only the fact of failure. Three error classes
  are kept apart where the code distinguishes them.
* Strings are byte lists (Go strings are byte sequences). UTF-8 decoding and
  trimming follow the Go standard library byte for byte.
* Character maps for code pages other than ISO-8859-1 come from
  golang.org/x/text. They are a universally quantified function argument.
* Cryptographic primitives (SHA-1, SHA-2, modular exponentiation, ECDSA) are
  universally quantified function arguments, never axioms.
* Network and embedded-file access are universally quantified functions from a
  certificate reference to a result.
* `bufio.Scanner` (standard library) is modelled with its buffer, growth,
  shifting and end-of-input handling, because the code's behaviour depends on it.

## Trusted base

* Coq 8.16.1 kernel (and `coqchk`), including `vm_compute`.
* `Print Assumptions` for every property theorem: see the end of this file. No
  theorem depends on an axiom. `coqchk` also lists seven constants
  `Coq.ssr.ssrunder.Under_rel.*`; they are part of the standard library, are
  loaded with ZArith/Lia, and no theorem uses them.
* The faithfulness of the hand translation from Go to Gallina, as documented by
  the citation on each definition. The Go code was read, never run; the model was
  compared only with the results that the project itself records (see Checks against
  recorded results).
* The models of Go's standard library (`bufio.Scanner`, `unicode/utf8`,
  `bytes.Trim`, `strings.ToValidUTF8`, `strconv`, `encoding/asn1`, `embed.FS`),
  written from its documentation and from memory of its source.

## Checks against recorded results

The files `Conf_*.v` run the model on the data that the project's tests record. They
are checks on fixed data, not properties, and no claim of the manifest rests on them.

- `Conf_Golden.v` is written by `tools/golden.py` from `internal/card/testdata` and the
  names in the enum proto files. `Conf_Json.v` has JSON values, base64 and dates.
- `Conf_Card.v` parses each recorded card block and compares the message with the
  recorded JSON, then writes it again. Places, places of the second generation and
  vehicles are also anonymised and compared with the recorded output.
- `Conf_Dd.v` has the rows of the unit-test tables of `internal/dd`.
- `Conf_Cert.v` parses the certificates in the repository. The member-state
  certificates of the first generation are verified against the embedded root with
  SHA-1 written in Gallina and the real RSA key. The root of the second generation is
  not in the repository, so no real ECC signature is checked.

The tests of `internal/vu` read files that are not in the repository; there is nothing
recorded to compare the vehicle unit part with.

## Modelled

* The API: file type dispatch, raw parsing, marshalling and verification of a
  file (Api, Infer, RawCard, RawTypes, Scanner).
* The data dictionary types the card files use (DDScalar, DDString, DDRecord,
  Enums, Utf8).
* Every elementary file the driver card parser handles, in both directions
  (CardBasic, CardIdent, CardRecords, CardActivity, DriverCard, Chunks), and the
  options handed to its readers (CardOptions; no reader looks at them).
* Vehicle unit downloads: splitting, sizes, routing of transfers, the Gen1
  overview and activities (Vu), and the exported but unused day reader with its
  siblings for detailed speed and technical data (VuLegacy).
  The code does not decode the inside of second-generation record arrays, nor the
  interface version.
* Certificates, their verification, and the sources they come from (Asn1, Cert,
  Verify).
* The anonymisers, on values (Anonymize) and on a heap of messages (AnonHeap).
* The tool that fills the certificate cache: what it takes from certificates and
  from the table of the web site, its concurrent workers, the order of the index
  (FetchCerts), and a whole run with what can fail in it (FetchMain).
* The parse command (Cli); reading files and formatting messages are quantified.
* Which fields of a parsed file are views of the caller's buffer (Share).
* Goroutines verifying driver cards with one source that keeps its certificates, step by step
  (VerifyShared), or one message (VerifyAtOnce); memory is sequentially consistent there.
* The root key in the memory of the process and the root certificates that point into it (Anchor).
* What verification with the default source sends over the network (VerifyNet).
* The powers that verification of the first generation computes (Work).
* Goroutines that write a card message while others verify it (WriteVerify).
* The work of bufio.Scanner: calls, bytes copied and allocated (ScanWork).
* The limit of errgroup on the goroutines of the certificate tool (FetchLimit).
* Not code but specification: how vehicle units fill the activities of a card (Use) and its
  files of records that are stored in turn (indexed_file in Props_Newest), from
  docs/regulation/chapters/03-data-dictionary.md.
* Not code but specification: how authorities issue certificates (Issue) and why RSA signatures
  come back (Rsa), from docs/regulation/chapters/16-common-security-mechanisms.md.
* Width: the size and offset computations of the reader of vehicle unit files again, with an `int`
  of any width that wraps around.
* Nil, NilAnonymize: writing and the anonymisers of lists again, with messages whose lists may hold
  nil elements.

## Not modelled

* Flags, help and exit codes of the CLI (`cmd/`), build tooling, proto code generation, protobuf wire encoding.
* Of the tool that fills the certificate cache: HTTP, the ZIP file with the root,
  HTML parsing, JSON, command line and logging. The
  Unicode functions TrimSpace and ToLower and time.Parse are quantified.
* Go memory model and garbage collection, except slice aliasing into the
  caller's buffer (C104) and into the
  scanner buffer (C38). Messages are values; sharing of sub-messages between
  messages is modelled for the anonymisers only (AnonHeap).
* Nil elements inside repeated fields, except when writing and anonymizing (Nil, NilAnonymize):
  verifying takes lists without them, as the readers make them.
* The cryptographic primitives, and the time they take (but see C134).
* HTTP transport of the certificate client; resolvers with state other than
  kept first generation certificates (C105) and a changing network (C133), and resolvers
  that return certificates shared with the file.

## What the mutation log says

Each line of `seeded/LOG.jsonl` is one edit of a model definition, applied to a
copy of a committed version. Proofs that no longer compile are replaced by
`Admitted` until the rest builds. `proofs_failed` lists those proofs.
`theorems_failed` lists the property theorems that depend on one of them
according to `Print Assumptions`. A proof that no longer compiles does not show
that its statement is false of the edited model, and a theorem can be listed
because it shares a lemma with the one that matters. `target_failed` therefore
says whether a theorem of the property the edit was meant to break is among them.

## Plan per property

Modelling unit, and the way each property is to be proved. "Refuted" means that
the universal claim is false of the code; then the manifest says `partial`, a
theorem `..._refuted` gives a witness and a `..._partial` theorem gives the sharp
true statement.

| Property | Model | Proof |
|---|---|---|
| C01 | Api: UnmarshalFile | case analysis over the first two bytes |
| C02 | RawCard, Scanner, Api | invariant: consumed records re-encode to the consumed prefix |
| C03 | Scanner + split function | invariant on buffer window vs. remaining stream, induction on records |
| C04 | same | prefix argument over the scanner refinement |
| C05 | all card parsers with checked slicing | panic-freedom lemma per parser; refuted by the 65531 record; iff for the rest |
| C06 | VU sizes with checked slicing | refuted by `76 01`; characterisation of panics for first-generation transfers |
| C07 | Scanner | refuted for 65531..65535; accepted below (C03) |
| C08 | Infer | set characterisation, permutation invariance by induction |
| C09 | Infer with the card file tables | computation over the tables, refuted for company cards |
| C10 | DriverCard dispatcher as a fold | noninterference between the two record streams |
| C11 | DriverCard dispatcher | refuted for generation; partial for file and adjacency |
| C12 | DriverCard dispatcher | refuted; exact set of ignored files |
| C13 | DriverCard dispatcher | fold commutation, permutation induction |
| C14 | DriverCard dispatcher | fold absorption |
| C15 | Infer, DriverCard | refuted: no dump with C100/02 is accepted |
| C16 | DriverCard, all EF codecs | refuted; partial: exactly the canonical dumps round-trip |
| C17 | DriverCard marshal | refuted; partial: what is written instead |
| C18 | DriverCard marshal | refuted; partial: list of files that survive |
| C19 | DriverCard both directions | refuted; partial: composition of EF lemmas and TLV re-splitting; two cycles |
| C20 | marshal totality | refuted by nation code; exact condition per field |
| C21-C27 | dd scalar codecs | arithmetic, finite sweeps lifted to all values |
| C28-C31 | dd strings, vehicle registration | list reasoning, UTF-8 decoder model |
| C32, C33 | bit fields | finite sweep over 2^16 and 2^8 lifted to all inputs |
| C34-C43 | card EF codecs | composition of dd lemmas, induction on record lists |
| C37, C38, C41 | Scanner with buffer identity | fill by fill: what each place of the buffer holds in the end; one condition per record |
| C44-C48 | Activity | fuel-free iteration bound, ring specification, induction on days |
| C49-C53 | VU splitter | invariant on offset; computation for refutations |
| C54-C60 | Security, Verify | decision-rule characterisations over arbitrary primitives |
| C61 | Cert | induction on the chain |
| C62 | Security parsers | checked slicing, field ranges |
| C63-C64 | Anonymise | noninterference by computation on records |
| C65 | canvas painting | byte-wise specification of edited records |
| C66 | marshal lengths | refuted above 65535; partial below |
| C67-C69 | Verify, Api | directory lookups by computation; case analysis over sources |
| C70-C72 | Anonymise | regenerated bytes vs. fields; idempotence; order of changes |
| C73 | all fixed-layout records | concatenation of documented parts, cut at their lengths |
| C74-C78 | DDRecord, Vu | enumeration tables by computation; overview cut at its parts, induction on records |
| C79-C81 | DDRecord, Vu | field calculus; canvas painted left to right, induction on records; exact conditions and counterexamples |
| C82 | DriverCard, Api | characterisation of accepted dumps (P_Dump), case analysis on the file table |
| C83-C84 | Vu | transfer cut at its parts, induction on records; field calculus for acceptance |
| C85-C88 | VuLegacy | calculus of parsers at an offset (what is read, when it panics), composed along the reader |
| C89 | all of the driver card | calculus of values that survive writing and reading, field by field, file by file, then the whole card through the dump calculus of C16 |
| C90 | overview and day readers | inversion of each reading step, acceptance of each record |
| C91 | vehicle unit files | C90 and the size computation's layouts (C49), stage by stage |
| C92 | driver card files | acceptance of each file (C34–C44, C62) through the dump calculus of C10 |
| C93 | card numbers | cutting EF Identification into its parts (C73) |
| C94 | FetchCerts: recovery; Cert | both computations reduced to one recovered number; refuted for the authority |
| C95 | FetchCerts: references; Asn1, Cert | same elements visited in the same order; refuted for readability |
| C96 | FetchCerts: workers as step lists | interleavings commute outside a path; refuted for shared files |
| C97 | FetchCerts: sorting | order laws; sorted permutations without ties are equal; refuted with ties |
| C98 | FetchCerts: paths | cleaning a path without slashes; refuted by a name with ".." |
| C99 | FetchCerts, Verify: client | C94, C95, C96 through the lookup |
| C100 | FetchCerts: dates | digits and calendar; all 49711 days computed; refuted for zero |
| C101 | FetchCerts: tables | induction over the document; refuted for absolute links |
| C102 | Cli | induction over the list of files; refuted for the files behind a bad one |
| C103 | all parsers | entries charged to disjoint bytes; refuted for the activity ring |
| C104 | Share | simulation of two parsers up to hidden bytes; refuted for vehicle unit downloads |
| C105 | VerifyShared | invariant of the kept certificate under every step; refuted for half keys |
| C106 | Issue, Rsa | issuing per Appendix 11, correctness of RSA with several primes, then C54 |
| C107 | Issue | the issued elements satisfy the layout of C62; lengths for all 36 curve pairs |
| C108 | Width | simulation of wrapping by exact arithmetic unless an array announces too much |
| C109, C110 | Nil | no append function panics but one; every element of a written list was appended |
| C111 | Verify | no step panics but ECDSA; a witness off brainpoolP256r1 |
| C112 | NilAnonymize | the loops panic on nil; simulation on lists without it |
| C113 | all readers | the numbers of each message with their ranges; one lemma per decoder, lifted to files |
| C114 | DriverCard both directions | what is written for any accepted file, as a function of its bytes; that function is idempotent from the second step |
| C115 | VU files | from the characterisation of messages by transfers (C49, C91) |
| C116 | DDString | induction on the characters at both ends, over decoding of encoded characters |
| C117 | DriverCard | injectivity of every reader up to the bytes it drops; the fold of C14 |
| C118-C119 | AnonHeap | footprints of pointers and a frame lemma; loops that allocate and loops that set, each record apart from the others |
| C120 | DriverCard | the length of every part, and sums |
| C121 | CardActivity | what is in front of the position of the writing loop stays |
| C122-C123 | FetchMain | the steps on one path, filtered from all steps of a run |
| C124 | DDScalar, DDRecord, CardRecords | the bytes of a record with something missing |
| C125 | CardOptions, DriverCard | noninterference over the fold of C14; simulation for the options |
| C126 | CardRecords, DriverCard | lengths of the readers' lists; witness |
| C127 | Verify, DriverCard, Api | what verification looks at, through C19's re-reading; witness |
| C128 | DriverCard, Vu, Api | composition of the folds of C14 and C49 |
| C129 | DriverCard, Api | induction over the fixed order of the writer; witness by a wrapped length |
| C130 | VerifyAtOnce | invariant: every write writes the final value; witness by two authorities in one certificate |
| C131 | Verify, Api | monotony in the answers of the source; witness with a source in front |
| C132 | Anchor | invariant of the windows into the variable; witness by one written byte |
| C133 | VerifyNet | case analysis over the requests; refinement of verification for steady networks |
| C134 | Work | induction over the bits of the exponent; witness by a key with modulus zero |
| C135 | WriteVerify | invariant over the interleaving: what is left to write makes, with the bytes so far, the whole |
| C136 | DriverCard | induction over the order of writing; the units of the two dumps are compared |
| C137 | Api | the units of what is written are of driver card files, so that inference says driver card |
| C138 | Api | the beginning of a dump is a dump, the last record maybe without its signature; beginnings of framed downloads are framed |
| C139 | ScanWork | potential argument: a move to the front is charged to the next record, growth to the doubling buffer |
| C140 | FetchLimit | invariant: the semaphore counts running functions; each move lowers a measure by one; runs refine interleavings |
| C141 | P_Dump, Verify | what a shorter dump still has is what the longer one has; the verdict depends on two certificates and the applications present |
| C142 | Cert, Verify | the verdict depends on the two card certificates only; what is reported after a success are parts of what was signed |
| C143 | Cert | same signature gives same recovered number; powers of congruent numbers; layout with bytes behind it |
| C144 | Verify | C54 and the layout of certificates; the verdict as a function of the key; toy card |
| C145 | Use, CardActivity | invariant of the writer: the latest days stand on the ring from the oldest pointer on; then C45 and C46 |
| C146 | CardRecords | induction over the stored records from the end, then record by record |
| C147 | Use, CardActivity, CardRecords | the history only grows at its end; maximality of C145 compares the two windows |
| C148 | Use, DriverCard, Api | composition of C92, C145 and C146 |
| C149 | Use, CardActivity | the days read are a final part of the history (C145); order is kept by final parts and by leaving out changes |
| C150 | CardRecords | places of the list read from behind the index, computed from C146 |

## Assumptions of the theorems

Output of `Print Assumptions` for each theorem in MANIFEST.json.

| Property | Theorem | Print Assumptions |
|---|---|---|
| C01 | `C01_dispatch` | Closed under the global context |
| C02 | `C02_raw_card_round_trip` | Closed under the global context |
| C03 | `C03_card_framing` | Closed under the global context |
| C03 | `C03_card_framing_injective` | Closed under the global context |
| C04 | `C04_truncated_card_rejected` | Closed under the global context |
| C05 | `C05_no_panic_partial` | Closed under the global context |
| C05 | `C05_no_panic_refuted` | Closed under the global context |
| C06 | `C06_no_panic_partial` | Closed under the global context |
| C06 | `C06_no_panic_refuted` | Closed under the global context |
| C07 | `C07_record_lengths_partial` | Closed under the global context |
| C07 | `C07_record_lengths_refuted` | Closed under the global context |
| C08 | `C08_inference_is_set_based` | Closed under the global context |
| C08 | `C08_company_never_inferred` | Closed under the global context |
| C09 | `C09_card_types_partial` | Closed under the global context |
| C09 | `C09_card_types_refuted` | Closed under the global context |
| C10 | `C10_applications_partial` | Closed under the global context |
| C10 | `C10_applications_refuted` | Closed under the global context |
| C11 | `C11_signatures_partial` | Closed under the global context |
| C11 | `C11_signatures_refuted` | Closed under the global context |
| C12 | `C12_nothing_ignored_partial` | Closed under the global context |
| C12 | `C12_nothing_ignored_refuted` | Closed under the global context |
| C13 | `C13_order_partial` | Closed under the global context |
| C13 | `C13_both_rejected` | Closed under the global context |
| C13 | `C13_order_refuted` | Closed under the global context |
| C14 | `C14_last_occurrence_wins` | Closed under the global context |
| C15 | `C15_certificates_partial` | Closed under the global context |
| C15 | `C15_certificates_refuted` | Closed under the global context |
| C16 | `C16_round_trip_partial` | Closed under the global context |
| C16 | `C16_round_trip_refuted` | Closed under the global context |
| C17 | `C17_signatures_partial` | Closed under the global context |
| C17 | `C17_signatures_ignored` | Closed under the global context |
| C17 | `C17_signatures_refuted` | Closed under the global context |
| C18 | `C18_second_generation_partial` | Closed under the global context |
| C18 | `C18_unwritten` | Closed under the global context |
| C18 | `C18_second_generation_refuted` | Closed under the global context |
| C19 | `C19_normal_form_partial` | Closed under the global context |
| C19 | `C19_normal_form_refuted` | Closed under the global context |
| C19 | `C19_output_rejected_refuted` | Closed under the global context |
| C20 | `C20_marshal_partial` | Closed under the global context |
| C20 | `C20_marshal_refuted` | Closed under the global context |
| C21 | `C21_time_real_round_trip` | Closed under the global context |
| C22 | `C22_odometer_round_trip` | Closed under the global context |
| C23 | `C23_bcd_decode_partial` | Closed under the global context |
| C23 | `C23_bcd_encode` | Closed under the global context |
| C23 | `C23_bcd_string_partial` | Closed under the global context |
| C23 | `C23_bcd_refuted` | Closed under the global context |
| C24 | `C24_date_partial` | Closed under the global context |
| C24 | `C24_month_year_partial` | Closed under the global context |
| C24 | `C24_dates_refuted` | Closed under the global context |
| C25 | `C25_csv_partial` | Closed under the global context |
| C25 | `C25_csv_refuted` | Closed under the global context |
| C26 | `C26_enum_correspondence` | Closed under the global context |
| C27 | `C27_geo_round_trip` | Closed under the global context |
| C27 | `C27_gnss_record_round_trip` | Closed under the global context |
| C28 | `C28_string_value_partial` | Closed under the global context |
| C28 | `C28_string_build` | Closed under the global context |
| C28 | `C28_string_value_refuted` | Closed under the global context |
| C29 | `C29_ia5_round_trip` | Closed under the global context |
| C30 | `C30_text_is_clean_partial` | Closed under the global context |
| C30 | `C30_file_text_partial` | Closed under the global context |
| C30 | `C30_file_text_refuted` | Closed under the global context |
| C30 | `C30_padding_refuted` | Closed under the global context |
| C31 | `C31_vehicle_registration_partial` | Closed under the global context |
| C31 | `C31_no_wrong_nation` | Closed under the global context |
| C31 | `C31_vehicle_registration_refuted` | Closed under the global context |
| C32 | `C32_activity_change_round_trip` | Closed under the global context |
| C33 | `C33_control_type_round_trip` | Closed under the global context |
| C34 | `C34_app_id_partial` | Closed under the global context |
| C34 | `C34_app_id_g2_partial` | Closed under the global context |
| C34 | `C34_app_id_v2_round_trip` | Closed under the global context |
| C34 | `C34_app_id_refuted` | Closed under the global context |
| C35 | `C35_ic_round_trip` | Closed under the global context |
| C35 | `C35_icc_partial` | Closed under the global context |
| C35 | `C35_icc_refuted` | Closed under the global context |
| C36 | `C36_identification_partial` | Closed under the global context |
| C36 | `C36_stable_partial` | Closed under the global context |
| C36 | `C36_identification_refuted` | Closed under the global context |
| C36 | `C36_stable_refuted` | Closed under the global context |
| C37 | `C37_events_exact` | Closed under the global context |
| C37 | `C37_events_listed` | Closed under the global context |
| C37 | `C37_events_partial` | Closed under the global context |
| C37 | `C37_events_refuted` | Closed under the global context |
| C38 | `C38_events_exact` | Closed under the global context |
| C38 | `C41_units_exact` | Closed under the global context |
| C38 | `C38_stable_partial` | Closed under the global context |
| C38 | `C38_stable_refuted` | Closed under the global context |
| C39 | `C39_places_round_trip` | Closed under the global context |
| C39 | `C39_places_g2_round_trip` | Closed under the global context |
| C40 | `C40_vehicles_partial` | Closed under the global context |
| C40 | `C40_vehicles_g2_partial` | Closed under the global context |
| C40 | `C40_vehicles_refuted` | Closed under the global context |
| C41 | `C41_gnss_places_partial` | Closed under the global context |
| C41 | `C41_units_exact` | Closed under the global context |
| C41 | `C41_units_partial` | Closed under the global context |
| C41 | `C41_lists_refuted` | Closed under the global context |
| C42 | `C42_conditions_round_trip` | Closed under the global context |
| C42 | `C42_conditions_g2_round_trip` | Closed under the global context |
| C43 | `C43_card_download_round_trip` | Closed under the global context |
| C43 | `C43_current_usage_partial` | Closed under the global context |
| C43 | `C43_driving_licence_partial` | Closed under the global context |
| C43 | `C43_control_activity_partial` | Closed under the global context |
| C43 | `C43_small_files_refuted` | Closed under the global context |
| C44 | `C44_ring_terminates` | Closed under the global context |
| C44 | `C44_activity_bounded` | Closed under the global context |
| C45 | `C45_ring_partial` | Closed under the global context |
| C45 | `C45_crossing_partial` | Closed under the global context |
| C45 | `C45_ring_refuted` | Closed under the global context |
| C46 | `C46_changes_partial` | Closed under the global context |
| C46 | `C46_changes_refuted` | Closed under the global context |
| C47 | `C47_activity_verbatim` | Closed under the global context |
| C48 | `C48_rebuilt_partial` | Closed under the global context |
| C48 | `C48_rebuilt_refuted` | Closed under the global context |
| C49 | `C49_split_without_loss` | Closed under the global context |
| C50 | `C50_truncated` | Closed under the global context |
| C51 | `C51_second_generation_partial` | Closed under the global context |
| C51 | `C51_second_generation_refuted` | Closed under the global context |
| C52 | `C52_parts_partial` | Closed under the global context |
| C52 | `C52_round_trip_refuted` | Closed under the global context |
| C53 | `C53_one_generation` | Closed under the global context |
| C53 | `C49_split_without_loss` | Closed under the global context |
| C54 | `C54_authentic` | Closed under the global context |
| C55 | `C55_anchored_partial` | Closed under the global context |
| C55 | `C55_anchored_refuted` | Closed under the global context |
| C56 | `C56_altered_data_partial` | Closed under the global context |
| C56 | `C56_altered_data_refuted` | Closed under the global context |
| C57 | `C57_marks_partial` | Closed under the global context |
| C57 | `C57_marks_refuted` | Closed under the global context |
| C58 | `C58_repeatable_partial` | Closed under the global context |
| C58 | `C58_repeatable_refuted` | Closed under the global context |
| C59 | `C59_frame` | Closed under the global context |
| C60 | `C60_expired_partial` | Closed under the global context |
| C60 | `C60_expired_refuted` | Closed under the global context |
| C61 | `C61_chain` | Closed under the global context |
| C62 | `C62_certificates_parsed` | Closed under the global context |
| C63 | `C63_nothing_personal` | Closed under the global context |
| C63 | `C63_kept` | Closed under the global context |
| C63 | `C63_texts` | Closed under the global context |
| C63 | `C63_dumps` | Closed under the global context |
| C64 | `C64_nothing_revealed_partial` | Closed under the global context |
| C64 | `C64_revealed_refuted` | Closed under the global context |
| C65 | `C65_edits_win_partial` | Closed under the global context |
| C65 | `C65_other_files_partial` | Closed under the global context |
| C65 | `C65_edits_win_refuted` | Closed under the global context |
| C65 | `C65_lost_refuted` | Closed under the global context |
| C66 | `C66_lengths_partial` | Closed under the global context |
| C66 | `C66_lengths_refuted` | Closed under the global context |
| C67 | `C67_embedded_partial` | Closed under the global context |
| C67 | `C67_lookup` | Closed under the global context |
| C67 | `C67_embedded_refuted` | Closed under the global context |
| C68 | `C68_something_verified_partial` | Closed under the global context |
| C68 | `C68_something_verified_refuted` | Closed under the global context |
| C68 | `C68_unchecked_types_refuted` | Closed under the global context |
| C69 | `C69_own_authority_partial` | Closed under the global context |
| C69 | `C69_own_authority_refuted` | Closed under the global context |
| C70 | `C70_still_files_partial` | Closed under the global context |
| C70 | `C70_still_files_refuted` | Closed under the global context |
| C71 | `C71_twice` | Closed under the global context |
| C72 | `C72_order_partial` | Closed under the global context |
| C72 | `C72_order_refuted` | Closed under the global context |
| C73 | `C73_vehicle_layout` | Closed under the global context |
| C73 | `C73_vehicle_g2_layout` | Closed under the global context |
| C73 | `C73_place_layout` | Closed under the global context |
| C73 | `C73_place_g2_layout` | Closed under the global context |
| C73 | `C73_gnss_place_layout` | Closed under the global context |
| C73 | `C73_gnss_place_auth_layout` | Closed under the global context |
| C73 | `C73_gnss_record_layout` | Closed under the global context |
| C73 | `C73_condition_layout` | Closed under the global context |
| C73 | `C73_ext_serial_layout` | Closed under the global context |
| C73 | `C73_unit_layout` | Closed under the global context |
| C73 | `C73_event_layout` | Closed under the global context |
| C73 | `C73_ic_layout` | Closed under the global context |
| C73 | `C73_icc_layout` | Closed under the global context |
| C73 | `C73_current_usage_layout` | Closed under the global context |
| C73 | `C73_driving_licence_layout` | Closed under the global context |
| C73 | `C73_app_id_layout` | Closed under the global context |
| C73 | `C73_app_id_g2_layout` | Closed under the global context |
| C73 | `C73_identification_layout` | Closed under the global context |
| C73 | `C73_list_layout` | Closed under the global context |
| C73 | `C73_list_records` | Closed under the global context |
| C73 | `C73_vehicle_counter` | Closed under the global context |
| C73 | `C73_day_layout` | Closed under the global context |
| C73 | `C73_control_card_misread` | Closed under the global context |
| C73 | `C73_app_id_v2_refuted` | Closed under the global context |
| C73 | `C73_control_card_refuted` | Closed under the global context |
| C74 | `C74_card_kinds_partial` | Closed under the global context |
| C74 | `C74_card_kinds_refuted` | Closed under the global context |
| C75 | `C75_issuing_state_partial` | Closed under the global context |
| C75 | `C75_issuing_state_refuted` | Closed under the global context |
| C76 | `C76_overview_layout` | Closed under the global context |
| C77 | `C77_overview_of_a_controlled_vehicle` | Closed under the global context |
| C77 | `C77_controlled_refuted` | Closed under the global context |
| C78 | `C78_slots_misread` | Closed under the global context |
| C78 | `C78_slots_refuted` | Closed under the global context |
| C79 | `C79_card_number_partial` | Closed under the global context |
| C79 | `C79_number_and_generation_partial` | Closed under the global context |
| C79 | `C79_card_number_refuted` | Closed under the global context |
| C80 | `C80_card_iw_partial` | Closed under the global context |
| C80 | `C80_card_iw_refuted` | Closed under the global context |
| C81 | `C81_overview_partial` | Closed under the global context |
| C81 | `C81_overview_any` | Closed under the global context |
| C81 | `C81_overview_refuted` | Closed under the global context |
| C82 | `C82_signed_files` | Closed under the global context |
| C83 | `C83_activities_layout` | Closed under the global context |
| C84 | `C84_accepted_days_partial` | Closed under the global context |
| C84 | `C84_accepted_days_refuted` | Closed under the global context |
| C85 | `C85_first_generation_accepted` | Closed under the global context |
| C85 | `C85_first_generation_layout` | Closed under the global context |
| C85 | `C85_agrees_refuted` | Closed under the global context |
| C86 | `C86_never_panics_refuted` | Closed under the global context |
| C86 | `C86_first_generation_panics` | Closed under the global context |
| C86 | `C86_second_generation_panics` | Closed under the global context |
| C86 | `C86_other_inputs` | Closed under the global context |
| C87 | `C87_second_generation_accepted` | Closed under the global context |
| C87 | `C87_second_generation_layout` | Closed under the global context |
| C88 | `C88_all_records_read_refuted` | Closed under the global context |
| C88 | `C88_all_records_read_partial` | Closed under the global context |
| C89 | `C89_built_card_partial` | Closed under the global context |
| C89 | `C89_names_refuted` | Closed under the global context |
| C89 | `C89_workshop_refuted` | Closed under the global context |
| C89 | `C89_midnight_refuted` | Closed under the global context |
| C89 | `C89_readable_refuted` | Closed under the global context |
| C90 | `C90_overview_accepted` | Closed under the global context |
| C90 | `C90_day_accepted` | Closed under the global context |
| C91 | `C91_first_generation` | Closed under the global context |
| C91 | `C91_second_generation` | Closed under the global context |
| C92 | `C92_driver_cards` | Closed under the global context |
| C92 | `C92_charmap_irrelevant` | Closed under the global context |
| C93 | `C93_card_number` | Closed under the global context |
| C93 | `C93_letter_index_refuted` | Closed under the global context |
| C94 | `C94_recovered` | Closed under the global context |
| C94 | `C94_recovery_is_verification` | Closed under the global context |
| C94 | `C94_listed_refuted` | Closed under the global context |
| C95 | `C95_references` | Closed under the global context |
| C95 | `C95_readable_refuted` | Closed under the global context |
| C96 | `C96_entries` | Closed under the global context |
| C96 | `C96_files` | Closed under the global context |
| C96 | `C96_shared` | Closed under the global context |
| C96 | `C96_files_refuted` | Closed under the global context |
| C97 | `C97_order` | Closed under the global context |
| C97 | `C97_sorted` | Closed under the global context |
| C97 | `C97_reproducible_partial` | Closed under the global context |
| C97 | `C97_reproducible_refuted` | Closed under the global context |
| C98 | `C98_location_partial` | Closed under the global context |
| C98 | `C98_names` | Closed under the global context |
| C98 | `C98_location_refuted` | Closed under the global context |
| C99 | `C99_first_generation` | Closed under the global context |
| C99 | `C99_second_generation` | Closed under the global context |
| C100 | `C100_site_dates` | Closed under the global context |
| C100 | `C100_validity_partial` | Closed under the global context |
| C100 | `C100_validity_refuted` | Closed under the global context |
| C101 | `C101_rows` | Closed under the global context |
| C101 | `C101_links` | Closed under the global context |
| C101 | `C101_names` | Closed under the global context |
| C101 | `C101_absolute_refuted` | Closed under the global context |
| C102 | `C102_parse_command` | Closed under the global context |
| C102 | `C102_every_file_refuted` | Closed under the global context |
| C103 | `C103_size_partial` | Closed under the global context |
| C103 | `C103_size_refuted` | Closed under the global context |
| C104 | `C104_untouched_buffer` | Closed under the global context |
| C104 | `C104_reused_buffer_partial` | Closed under the global context |
| C104 | `C104_reused_buffer_refuted` | Closed under the global context |
| C105 | `C105_kept_certificates_partial` | Closed under the global context |
| C105 | `C105_default_source` | Closed under the global context |
| C105 | `C105_kept_certificates_refuted` | Closed under the global context |
| C106 | `C106_certificate` | Closed under the global context |
| C106 | `C106_genuine_card` | Closed under the global context |
| C106 | `C106_default_sources` | Closed under the global context |
| C107 | `C107_certificate` | Closed under the global context |
| C108 | `C108_64` | Closed under the global context |
| C108 | `C108_32_partial` | Closed under the global context |
| C108 | `C108_same_outcome_refuted` | Closed under the global context |
| C108 | `C108_accepts_more_refuted` | Closed under the global context |
| C109 | `C109_write_panics_partial` | Closed under the global context |
| C109 | `C109_write_file_partial` | Closed under the global context |
| C109 | `C109_no_nil` | Closed under the global context |
| C109 | `C109_write_panics_refuted` | Closed under the global context |
| C110 | `C110_nil_refused_partial` | Closed under the global context |
| C110 | `C110_nil_left_out` | Closed under the global context |
| C110 | `C110_nil_place` | Closed under the global context |
| C110 | `C110_nil_place_g2` | Closed under the global context |
| C110 | `C110_nil_refused_refuted` | Closed under the global context |
| C111 | `C111_verify_panics_partial` | Closed under the global context |
| C111 | `C111_default_source` | Closed under the global context |
| C111 | `C111_no_crash` | Closed under the global context |
| C111 | `C111_rsa` | Closed under the global context |
| C111 | `C111_verify_panics_refuted` | Closed under the global context |
| C112 | `C112_anonymize_panics_partial` | Closed under the global context |
| C112 | `C112_no_nil` | Closed under the global context |
| C112 | `C112_nil_vehicle` | Closed under the global context |
| C112 | `C112_anonymize_panics_refuted` | Closed under the global context |
| C113 | `C113_numbers_fit` | Closed under the global context |
| C114 | `C114_two_cycles` | Closed under the global context |
| C115 | `C115_same_message` | Closed under the global context |
| C115 | `C115_any_order` | Closed under the global context |
| C116 | `C116_charset` | Closed under the global context |
| C116 | `C116_ascii` | Closed under the global context |
| C117 | `C117_same_card` | Closed under the global context |
| C118 | `C118_anonymise_leaves_source` | Closed under the global context |
| C119 | `C119_shared_partial` | Closed under the global context |
| C119 | `C119_edits_partial` | Closed under the global context |
| C119 | `C119_shared_refuted` | Closed under the global context |
| C120 | `C120_sizes_partial` | Closed under the global context |
| C120 | `C120_parts_partial` | Closed under the global context |
| C120 | `C120_sizes_refuted` | Closed under the global context |
| C121 | `C121_days_partial` | Closed under the global context |
| C121 | `C121_days_refuted` | Closed under the global context |
| C122 | `C122_success_partial` | Closed under the global context |
| C122 | `C122_old_or_new` | Closed under the global context |
| C122 | `C122_refuted` | Closed under the global context |
| C122 | `C122_content_refuted` | Closed under the global context |
| C123 | `C123_success_partial` | Closed under the global context |
| C123 | `C123_refuted` | Closed under the global context |
| C124 | `C124_missing_partial` | Closed under the global context |
| C124 | `C124_files` | Closed under the global context |
| C124 | `C124_missing_refuted` | Closed under the global context |
| C125 | `C125_other_contents` | Closed under the global context |
| C125 | `C125_version_ignored` | Closed under the global context |
| C125 | `C125_version_handed` | Closed under the global context |
| C126 | `C126_numbers_partial` | Closed under the global context |
| C126 | `C126_numbers_refuted` | Closed under the global context |
| C127 | `C127_verdict_partial` | Closed under the global context |
| C127 | `C127_verdict_refuted` | Closed under the global context |
| C128 | `C128_cards` | Closed under the global context |
| C128 | `C128_downloads` | Closed under the global context |
| C129 | `C129_unambiguous_partial` | Closed under the global context |
| C129 | `C129_parsed` | Closed under the global context |
| C129 | `C129_unambiguous_refuted` | Closed under the global context |
| C130 | `C130_at_once_partial` | Closed under the global context |
| C130 | `C130_accepted_partial` | Closed under the global context |
| C130 | `C130_at_once_refuted` | Closed under the global context |
| C131 | `C131_more_sources_partial` | Closed under the global context |
| C131 | `C131_more_sources_refuted` | Closed under the global context |
| C132 | `C132_anchor_partial` | Closed under the global context |
| C132 | `C132_identifier` | Closed under the global context |
| C132 | `C132_anchor_refuted` | Closed under the global context |
| C133 | `C133_requests` | Closed under the global context |
| C134 | `C134_work_partial` | Closed under the global context |
| C134 | `C134_work_refuted` | Closed under the global context |
| C135 | `C135_write_while_verifying` | Closed under the global context |
| C136 | `C136_bytes` | Closed under the global context |
| C136 | `C136_read` | Closed under the global context |
| C137 | `C137_kind_partial` | Closed under the global context |
| C137 | `C137_kind_refuted` | Closed under the global context |
| C138 | `C138_cards_partial` | Closed under the global context |
| C138 | `C138_downloads_partial` | Closed under the global context |
| C138 | `C138_cut_off_refuted` | Closed under the global context |
| C139 | `C139_same_scanner` | Closed under the global context |
| C139 | `C139_scanners` | Closed under the global context |
| C139 | `C139_cards` | Closed under the global context |
| C140 | `C140_limit_partial` | Closed under the global context |
| C140 | `C140_ends_partial` | Closed under the global context |
| C140 | `C140_one` | Closed under the global context |
| C140 | `C140_limit_refuted` | Closed under the global context |
| C141 | `C141_removed_partial` | Closed under the global context |
| C141 | `C141_stripped` | Closed under the global context |
| C141 | `C141_removed_refuted` | Closed under the global context |
| C142 | `C142_holder_partial` | Closed under the global context |
| C142 | `C142_transplanted` | Closed under the global context |
| C142 | `C142_purpose_refuted` | Closed under the global context |
| C143 | `C143_first_partial` | Closed under the global context |
| C143 | `C143_second_partial` | Closed under the global context |
| C143 | `C143_shifted` | Closed under the global context |
| C143 | `C143_trailing` | Closed under the global context |
| C143 | `C143_one_form_refuted` | Closed under the global context |
| C144 | `C144_first_partial` | Closed under the global context |
| C144 | `C144_name_ignored` | Closed under the global context |
| C144 | `C144_named_refuted` | Closed under the global context |
| C145 | `C145_in_use_partial` | Closed under the global context |
| C145 | `C145_nothing_lost_partial` | Closed under the global context |
| C145 | `C145_in_use_refuted` | Closed under the global context |
| C146 | `C146_total` | Closed under the global context |
| C146 | `C146_accepted` | Closed under the global context |
| C146 | `C146_units_partial` | Closed under the global context |
| C146 | `C146_units_refuted` | Closed under the global context |
| C147 | `C147_joins_partial` | Closed under the global context |
| C147 | `C147_gap_partial` | Closed under the global context |
| C147 | `C147_joins_refuted` | Closed under the global context |
| C147 | `C147_records` | Closed under the global context |
| C147 | `C147_units_partial` | Closed under the global context |
| C148 | `C148_gen1_partial` | Closed under the global context |
| C148 | `C148_gen2_partial` | Closed under the global context |
| C148 | `C148_records` | Closed under the global context |
| C148 | `C148_refuted` | Closed under the global context |
| C149 | `C149_in_order` | Closed under the global context |
| C149 | `C149_no_day_twice` | Closed under the global context |
| C150 | `C150_stored_order` | Closed under the global context |
| C150 | `C150_units_partial` | Closed under the global context |
| C150 | `C150_units_refuted` | Closed under the global context |
