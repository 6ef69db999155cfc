(** C92: exactly which dumps are read as driver cards. *)

From Verif Require Import Base Enums Chunks DDScalar DDString DDRecord RawTypes RawCard P_RawCard Infer Props_RawCard.
From Verif Require Import Field P_Scanner CardBasic P_Basic CardRecords P_Record P_Records CardIdent P_Ident CardActivity.
From Verif Require Import Props_Scalar Props_Basic Props_Records Props_Activity Cert P_Cert DriverCard P_Driver Vu Verify Api.
From Verif Require Import P_Dump Props_Dump Props_Driver Props_Signed Props_Cert.

(** ** What the files must look like *)

(** Record [i] of [n] bytes behind a head of [h]. *)
Definition records (h n : nat) (v : bytes) (P : nat -> Prop) : Prop :=
  forall i, (h + i * n + n <= length v)%nat -> P (h + i * n)%nat.

Definition ring_readable (v : bytes) : Prop :=
  (5 <= length v)%nat /\
  exists rs q, visits (skipn 4 v) (be16 v 2) rs q /\ (length rs <= 365)%nat /\ chain_end (skipn 4 v) q.

Definition certificate_readable (v : bytes) : Prop :=
  (204 <= length v <= 341)%nat /\ exists c, ecc_layout v c.

(** By file identifier and generation; files that are skipped can hold anything. *)
Definition readable (fid : Z) (gen2 : bool) (v : bytes) : Prop :=
  (fid = 0x0002 -> (25 <= length v)%nat /\ a_code clock_stop_mode_table (nth 0 v 0) /\ a_code equipment_type_table (nth 7 v 0)) /\
  (fid = 0x0005 -> (8 <= length v)%nat) /\
  (fid = 0x0501 -> length v = (if gen2 then 17 else 10)%nat /\ a_code equipment_type_table (nth 0 v 0)) /\
  (fid = 0x0502 \/ fid = 0x0503 -> records 0 24 v (fun o =>
     be (sub v (o + 1) 4) = 0 \/ a_code event_fault_type_table (nth o v 0))) /\
  (fid = 0x0504 -> ring_readable v) /\
  (fid = 0x0505 -> (2 <= length v)%nat /\ records 2 (if gen2 then 48 else 31)%nat v (fun o =>
     all_decimal [nth (o + 29) v 0; nth (o + 30) v 0])) /\
  (fid = 0x0506 -> ((if gen2 then 2 else 1) <= length v)%nat) /\
  (fid = 0x0507 -> (19 <= length v)%nat) /\
  (fid = 0x0508 -> (46 <= length v)%nat) /\
  (fid = 0x050E -> (4 <= length v)%nat) /\
  (fid = 0x0520 -> (143 <= length v)%nat) /\
  (fid = 0x0521 -> (53 <= length v)%nat) /\
  (fid = 0x0522 -> ((if gen2 then 2 else 0) <= length v)%nat) /\
  (fid = 0x0523 -> (2 <= length v)%nat /\ ((length v - 2) mod 10)%nat = 0%nat) /\
  (fid = 0x0524 -> (2 <= length v)%nat /\ ((length v - 2) mod 18)%nat = 0%nat) /\
  (fid = 0x0525 -> (4 <= length v)%nat) /\
  (fid = 0xC100 -> gen2 = false /\ length v = 194%nat) /\
  (fid = 0xC101 \/ fid = 0xC109 -> gen2 = true /\ certificate_readable v) /\
  (fid = 0xC108 -> if gen2 then certificate_readable v else length v = 194%nat).

(** ** The files one by one *)

Definition ok_slot (s : slot) (v : bytes) : Prop :=
  match s with
  | S_icc => (25 <= length v)%nat /\ a_code clock_stop_mode_table (nth 0 v 0) /\ a_code equipment_type_table (nth 7 v 0)
  | S_ic => (8 <= length v)%nat
  | S_app_id => length v = 10%nat /\ a_code equipment_type_table (nth 0 v 0)
  | S2_app_id => length v = 17%nat /\ a_code equipment_type_table (nth 0 v 0)
  | S_licence | S2_licence => (53 <= length v)%nat
  | S_identification | S2_identification => (143 <= length v)%nat
  | S_events | S2_events | S_faults | S2_faults =>
      records 0 24 v (fun o => be (sub v (o + 1) 4) = 0 \/ a_code event_fault_type_table (nth o v 0))
  | S_activity | S2_activity => ring_readable v
  | S_vehicles => (2 <= length v)%nat /\ records 2 31 v (fun o => all_decimal [nth (o + 29) v 0; nth (o + 30) v 0])
  | S2_vehicles => (2 <= length v)%nat /\ records 2 48 v (fun o => all_decimal [nth (o + 29) v 0; nth (o + 30) v 0])
  | S_places => (1 <= length v)%nat
  | S2_places => (2 <= length v)%nat
  | S_usage | S2_usage => (19 <= length v)%nat
  | S_control | S2_control => (46 <= length v)%nat
  | S_conditions => True
  | S2_conditions => (2 <= length v)%nat
  | S_download | S2_download => (4 <= length v)%nat
  | S2_units => (2 <= length v)%nat /\ ((length v - 2) mod 10)%nat = 0%nat
  | S2_gnss => (2 <= length v)%nat /\ ((length v - 2) mod 18)%nat = 0%nat
  | S2_app_v2 => (4 <= length v)%nat
  | S_card_cert | S_ca_cert => length v = 194%nat
  | S2_ma_cert | S2_sign_cert | S2_ca_cert | S2_link_cert => certificate_readable v
  end.

Lemma codec_ok cm s v : bytes_ok v -> is_ok (unmarshal_content cm s v) = slot_A s v.
Proof.
  intros H. pose proof (slot_codec cm s v H) as C. destruct (unmarshal_content cm s v) as [x|e|]; cbn [is_ok].
  - destruct C as [-> _]. reflexivity.
  - now rewrite C.
  - destruct C.
Qed.

Lemma leb_and n (v : bytes) (b : bool) : (n <=? length v)%nat && b = true <-> (n <= length v)%nat /\ b = true.
Proof. rewrite andb_true_iff, Nat.leb_le. tauto. Qed.

Lemma leb_true n (v : bytes) : (n <=? length v)%nat && true = true <-> (n <= length v)%nat.
Proof. rewrite andb_true_r, Nat.leb_le. tauto. Qed.

Lemma is_ok_iff {A} (r : res A) : is_ok r = true <-> exists x, r = Ok x.
Proof. destruct r as [x| |]; cbn; split; try discriminate; eauto; intros (y & E); discriminate. Qed.

Lemma ring_ok v : bytes_ok v -> (is_ok (unmarshal_activity v) = true <-> ring_readable v).
Proof.
  intros B. rewrite is_ok_iff. unfold ring_readable.
  destruct (C44_activity_bounded v B) as (_ & A & C).
  destruct (C44_ring_terminates (skipn 4 v) (be16 v 2) (bytes_ok_skipn 4 v B)) as (D & _).
  split.
  - intros (a & E). destruct (A a E) as (L & _ & _ & _ & P). apply D in P as (rs & q & V & N & X & _). eauto 10.
  - intros (L & rs & q & V & N & X).
    assert (P : parse_days (skipn 4 v) (be16 v 2) = Ok (rev (map day_of rs))) by (apply D; eauto 10).
    destruct (C _ L P) as (a & E & _). eauto.
Qed.

Lemma certificate_ok v : bytes_ok v -> (is_ok (unmarshal_ecc v) = true <-> certificate_readable v).
Proof.
  intros B. rewrite is_ok_iff. unfold certificate_readable.
  destruct (C62_certificates_parsed v B) as (_ & _ & C & _). split.
  - intros (c & E). apply C in E as [L E]. eauto.
  - intros (L & c & E). exists c. apply C. auto.
Qed.

Lemma id_acc h n v : (0 < n)%nat -> (file_acc h (f_id n) v = true <-> (h <= length v)%nat).
Proof.
  intros N. unfold file_acc. rewrite andb_true_iff, Nat.leb_le, body_acc_at by exact N. cbn [f_id f_acc]. tauto.
Qed.

Lemma icc_acc v : bytes_ok v -> ((flen icc_fields <=? length v)%nat && acc_at icc_fields v 0 = true <->
  (25 <= length v)%nat /\ a_code clock_stop_mode_table (nth 0 v 0) /\ a_code equipment_type_table (nth 7 v 0)).
Proof.
  intros B. change (flen icc_fields) with 25%nat. rewrite andb_true_iff, Nat.leb_le.
  split; intros [L A]; (split; [exact L|]).
  - rewrite !a_code_ok by reflexivity. unfold icc_fields in A.
    cbn [acc_at f_enum f_if f_id f_month_year f_fun f_len f_acc Nat.add andb] in A.
    rewrite !nth_sub in A by lia. cbn [Nat.add] in A. rewrite !andb_true_r, andb_true_iff in A. tauto.
  - rewrite !a_code_ok in A by reflexivity. unfold icc_fields.
    cbn [acc_at f_enum f_if f_id f_month_year f_fun f_len f_acc Nat.add andb].
    rewrite !nth_sub by lia. cbn [Nat.add]. rewrite !andb_true_r, andb_true_iff. tauto.
Qed.

Lemma slot_readable cm s v : bytes_ok v -> (is_ok (unmarshal_content cm s v) = true <-> ok_slot s v).
Proof.
  intros B.
  assert (EV : is_ok (unmarshal_events cm v) = true <->
    records 0 24 v (fun o => be (sub v (o + 1) 4) = 0 \/ a_code event_fault_type_table (nth o v 0))).
  { exact (proj1 (C37_events_listed cm v B)). }
  assert (VE : is_ok (unmarshal_vehicles cm v) = true <-> ok_slot S_vehicles v).
  { split; [|intros [L A]; exact (proj2 (proj1 (C40_vehicles_partial cm v B L)) A)].
    intros E. assert (L : (2 <= length v)%nat).
    { assert (Q : slot_A S_vehicles v = true) by (rewrite <- (codec_ok cm S_vehicles v B); exact E).
      cbn [slot_A] in Q. unfold file_acc in Q. apply leb_and in Q. tauto. }
    split; [exact L|]. exact (proj1 (proj1 (C40_vehicles_partial cm v B L)) E). }
  assert (VE2 : is_ok (unmarshal_vehicles_g2 cm v) = true <-> ok_slot S2_vehicles v).
  { split; [|intros [L A]; exact (proj2 (proj1 (C40_vehicles_g2_partial cm v B L)) A)].
    intros E. assert (L : (2 <= length v)%nat).
    { assert (Q : slot_A S2_vehicles v = true) by (rewrite <- (codec_ok cm S2_vehicles v B); exact E).
      cbn [slot_A] in Q. unfold file_acc in Q. apply leb_and in Q. tauto. }
    split; [exact L|]. exact (proj1 (proj1 (C40_vehicles_g2_partial cm v B L)) E). }
  destruct s; cbn [ok_slot]; try exact EV; try exact VE; try exact VE2;
    try exact (proj1 (C34_app_id_partial v B)); try exact (proj1 (C34_app_id_g2_partial v B));
    try exact (proj1 (C41_units_partial v B)); try exact (proj1 (C41_gnss_places_partial v B)).
  all: rewrite codec_ok by exact B; cbn [slot_A].
  all: try (now apply ring_ok); try (now apply certificate_ok); try (now apply icc_acc); try (apply Nat.leb_le); try (apply leb_true); try (apply Nat.eqb_eq).
  all: rewrite id_acc by lia; try tauto.
  split; [tauto|lia].
Qed.

(** ** Dumps *)

Lemma readable_field fid g v : In fid driver_fids ->
  (readable fid g v <->
   match field_of fid g with Some s => ok_slot s v | None => In fid ignored_fids end).
Proof.
  intros I. unfold driver_fids in I.
  repeat (destruct I as [I|I]; [subst fid | ]); [..|destruct I].
  all: destruct g; unfold readable; cbn [field_of find fields_table fst Z.eqb Pos.eqb ok_slot]; split; intros R.
  all: try (apply existsb_eqb; reflexivity).
  all: try (apply existsb_eqb in R; discriminate R).
  all: try (destruct R as (R1 & R2 & R3 & R4 & R5 & R6 & R7 & R8 & R9 & R10 & R11 & R12 & R13 & R14 & R15 & R16 & R17 & R18 & R19);
    first [ exact (R1 eq_refl) | exact (R2 eq_refl) | exact (R3 eq_refl) | exact (R4 (or_introl eq_refl)) | exact (R4 (or_intror eq_refl))
          | exact (R5 eq_refl) | exact (R6 eq_refl) | exact (R7 eq_refl) | exact (R8 eq_refl) | exact (R9 eq_refl)
          | exact (R10 eq_refl) | exact (R11 eq_refl) | exact (R12 eq_refl) | exact (R13 eq_refl) | exact (R14 eq_refl)
          | exact (R15 eq_refl) | exact (R16 eq_refl) | exact (proj2 (R17 eq_refl)) | exact (proj2 (R18 (or_introl eq_refl)))
          | exact (proj2 (R18 (or_intror eq_refl))) | exact (R19 eq_refl) | exact I
          | destruct (R17 eq_refl); discriminate | destruct (R18 (or_introl eq_refl)); discriminate
          | destruct (R18 (or_intror eq_refl)); discriminate ]).
  all: do 18 (split; [intros Q; try discriminate Q; try (destruct Q as [Q|Q]; discriminate Q);
     first [ exact R | exact (conj eq_refl R) | cbv iota; lia ]|]);
     intros Q; try discriminate Q; exact R.
Qed.

(** The units a dump consists of: the file is one of a driver card, its contents are
    readable, and it has no signature if it is one of those without. *)
Definition unit_readable (u : dumped) : Prop :=
  In (u_fid u) driver_fids /\ readable (u_fid u) (u_gen2 u) (u_val u) /\
  (In (u_fid u) unsigned_fids -> u_sig u = None).

Lemma gives_readable cm u : dumped_ok u -> In (u_fid u) driver_fids ->
  ((exists o, gives cm u o) <-> unit_readable u).
Proof.
  intros V I. assert (B : bytes_ok (u_val u)) by (destruct V as (_ & _ & _ & B & _); exact B).
  unfold unit_readable. rewrite readable_field by exact I. unfold gives, u_field.
  destruct (field_of (u_fid u) (u_gen2 u)) as [s|] eqn:FE.
  - pose proof (rejects_iff _ _ _ FE) as RJ. rewrite <- (slot_readable cm s _ B), is_ok_iff. split.
    + intros (o & x & E & R & _). split; [exact I|]. split; [eauto|]. intros J. apply R. now apply RJ.
    + intros (_ & (x & E) & R). eexists. exists x. split; [exact E|]. split; [|reflexivity]. intros J. apply R. now apply RJ.
  - split.
    + intros (o & J & _). split; [exact I|]. split; [exact J|]. intros K. now apply unsigned_filed in K.
    + intros (_ & J & _). exists None. auto.
Qed.

Theorem C92_driver_cards : forall cm d, bytes_ok d ->
  ((exists f, unmarshal_file cm d = Ok f /\ file_type f = FILE_DRIVER_CARD) <->
   exists us, Forall dumped_ok us /\ d = dump us /\ starts_with_icc us /\ Forall unit_readable us).
Proof.
  intros cm d B. split.
  - intros (f & E). apply driver_parse in E as (us & os & V & -> & St & I & G & _); [|exact B].
    exists us. split; [exact V|]. split; [reflexivity|]. split; [exact St|]. clear St B. revert V I.
    induction G as [|u o us os G1 G IH]; intros V I; [constructor|].
    apply Forall_cons_iff in V as [V1 V], I as [I1 I]. constructor; [|auto]. apply (gives_readable cm); eauto.
  - intros (us & V & -> & St & R).
    assert (I : Forall (fun u => In (u_fid u) driver_fids) us) by (eapply Forall_impl; [|exact R]; intros u [U _]; exact U).
    assert (G : exists os, Forall2 (gives cm) us os).
    { clear St B. induction us as [|u us IH]; [exists []; constructor|].
      apply Forall_cons_iff in V as [V1 V], I as [I1 I], R as [R1 R]. destruct (IH V R I) as (os & G).
      apply (gives_readable cm u V1 I1) in R1 as (o & O). exists (o :: os). now constructor. }
    destruct G as (os & G). eexists. apply (driver_parse cm (dump us) _ B). exists us, os. auto 10.
Qed.
Print Assumptions C92_driver_cards.

(** Whether a dump is accepted does not depend on the code pages. *)
Theorem C92_charmap_irrelevant : forall cm cm' d, bytes_ok d ->
  (exists f, unmarshal_file cm d = Ok f /\ file_type f = FILE_DRIVER_CARD) ->
  exists f, unmarshal_file cm' d = Ok f /\ file_type f = FILE_DRIVER_CARD.
Proof. intros cm cm' d B H. apply (C92_driver_cards cm' d B). now apply (C92_driver_cards cm d B). Qed.
Print Assumptions C92_charmap_irrelevant.

(** A card with files of both generations, and what becomes of it when the decimal
    counter of a vehicle is not one or a day in the ring has a length of two. *)
Definition small_card (counter day_length : Z) : list dumped :=
  [icc_unit; ic_unit;
   mkDumped 0x0501 0 ([1; 0; 0] ++ zeros 7) (Some (1, zeros 128));
   mkDumped 0x0504 0 ([0; 0; 0; 0] ++ [0; 0; 0; day_length] ++ zeros 12) (Some (1, zeros 128));
   mkDumped 0x0505 2 ([0; 0] ++ zeros 29 ++ [0; counter] ++ zeros 17) (Some (3, zeros 64));
   mkDumped 0x0528 2 [1; 2; 3] None; mkDumped 0xC100 0 (zeros 194) None;
   mkDumped 0xC101 2 sample_certificate None].

Example C92_example :
  driver_ok (small_card 0x59 12) = true /\ driver_ok (small_card 0x5A 12) = false /\ driver_ok (small_card 0x59 2) = false.
Proof. repeat split; vm_compute; reflexivity. Qed.
