(** C16 to C20 and C66: writing driver cards. *)

From Verif Require Import Base Enums Chunks DDScalar DDString P_String DDRecord RawTypes RawCard P_RawCard Infer Props_RawCard.
From Verif Require Import Field P_Scanner CardBasic P_Basic CardRecords P_Record P_Records.
From Verif Require Import CardIdent P_Ident CardActivity Props_Activity Cert P_Cert DriverCard P_Driver Vu Verify Api P_Dump Props_Dump Props_Driver P_Write.
From Verif Require Import Props_Basic Props_Records Props_ScanExact P_WriteAll.
From Verif Require Props_Cert Props_Ident.

(** The file a driver card is returned in. *)
Definition driver_file (c : driver_card) : file := mkFile FILE_DRIVER_CARD None (Some c) None.

(** Units outside the known defects of single files: event and fault files that do
    not make the scanner reuse its buffer (C37, C38), vehicle unit lists of at most
    409 records (C41), and card numbers that fit their field (C36).  Only C19 needs
    them. *)
Definition plain (u : dumped) : Prop :=
  match field_of (u_fid u) (u_gen2 u) with
  | Some (S_events | S2_events | S_faults | S2_faults) => scan_safe 24 (u_val u)
  | Some S2_units => Z.of_nat (length (u_val u)) <= 4098
  | Some (S_identification | S2_identification) => ident_fits (u_val u)
  | _ => True
  end.

Lemma plain_P u s : plain u -> u_field u = Some s -> slot_P s (u_val u).
Proof. unfold plain, u_field. intros P F. rewrite F in P. destruct s; exact P || exact I. Qed.

(** ** Fields of a parsed card *)

Lemma parsed_field cm us os s x sg : Forall dumped_ok us -> Forall2 (gives cm) us os ->
  slot_of_card (card_of os) s = Some (x, sg) ->
  exists a u b, us = a ++ u :: b /\ u_field u = Some s /\ none_for s b /\ sg = u_signature u /\
    (rejects_signature s = true -> u_sig u = None) /\
    unmarshal_content cm s (u_val u) = Ok x /\ bytes_ok (u_val u) /\ slot_A s (u_val u) = true /\
    append_content s x = slot_V s (u_val u) /\
    forall v, append_content s x = Ok v -> bytes_ok v /\ Z.of_nat (length v) <= 65530.
Proof.
  intros V G E. destruct (card_some cm us os s (x, sg) G E) as (a & u & b & D & F & N & RJ & X & SG).
  cbn [fst snd] in *. exists a, u, b. split; auto. split; auto. split; auto. split; auto. split; auto. split; auto.
  subst us. apply Forall_app in V as [_ V]. inversion V as [|? ? (_ & _ & _ & B & L & _) _]; subst.
  destruct (slot_writes cm s (u_val u) x B X) as [A W]. split; auto. split; auto. split; auto.
  intros v Ev. rewrite W in Ev. destruct (slot_written s (u_val u) v B A Ev) as [B' L']. split; auto. lia.
Qed.

Lemma certificate_nonempty p v : In p marshal_order -> is_certificate (snd p) = true -> slot_A (fst p) v = true -> v <> [].
Proof.
  intros I K A ->. repeat destruct I as [<-|I]; try discriminate. destruct I.
Qed.

Lemma certificate_written p d v : In p marshal_order -> is_certificate (snd p) = true -> bytes_ok d ->
  slot_A (fst p) d = true -> slot_V (fst p) d = Ok v -> v <> [].
Proof.
  intros I K B A E. apply (certificate_nonempty p v); auto. apply (V_again (fst p) d v B A E).
  intros J. repeat destruct I as [<-|I]; try discriminate; try (cbn in J; intuition discriminate).
Qed.

Lemma parsed_short cm us os : Forall dumped_ok us -> Forall2 (gives cm) us os -> short_fields (card_of os).
Proof.
  intros V G s k x sg v _ E A. destruct (parsed_field cm us os s x sg V G E) as (_ & u & _ & _ & _ & _ & _ & _ & _ & _ & _ & _ & Q).
  destruct (Q v A) as (_ & L). lia.
Qed.

Lemma marshal_driver_file c : marshal_file (Some (driver_file c)) = concat_res (write_slot c) marshal_order.
Proof. reflexivity. Qed.

Lemma field_not_ma f g : field_of f g <> Some S2_ma_cert.
Proof.
  unfold field_of. destruct (find _ fields_table) as [[[f' s1] s2]|] eqn:E; [|discriminate].
  apply find_some in E as [I _]. repeat destruct I as [I|I]; try (injection I as <- <- <-; destruct g; discriminate). destruct I.
Qed.

(** The output for a parsed card is a dump in layout order; each unit is what is
    written for the last unit of its field. *)
Lemma marshal_parsed cm us os out : Forall dumped_ok us -> Forall2 (gives cm) us os ->
  marshal_file (Some (driver_file (card_of os))) = Ok out ->
  exists vs, out = dump vs /\ laid_out vs layout /\ Forall dumped_ok vs /\
    Forall (fun u => In (u_fid u) driver_fids) vs /\
    (forall u, In u vs -> exists p a w b, In p marshal_order /\ from_card (card_of os) u p /\ u_field u = Some (fst p) /\
       us = a ++ w :: b /\ u_field w = Some (fst p) /\ none_for (fst p) b /\
       bytes_ok (u_val w) /\ slot_A (fst p) (u_val w) = true /\ slot_V (fst p) (u_val w) = Ok (u_val u)) /\
    (forall p, In p marshal_order -> slot_of_card (card_of os) (fst p) <> None -> exists u, In u vs /\ from_card (card_of os) u p) /\
    (slot_of_card (card_of os) S_icc <> None -> starts_with_icc vs).
Proof.
  intros V G M. rewrite marshal_driver_file in M.
  pose proof (parsed_short cm us os V G) as SH.
  destruct (marshal_laid_out (card_of os) marshal_order out (incl_refl _) SH M) as (vs & -> & LO & H1 & H2 & H3).
  rewrite layout_order in LO.
  assert (K : forall u, In u vs -> exists p a w b, In p marshal_order /\ from_card (card_of os) u p /\ u_field u = Some (fst p) /\
       us = a ++ w :: b /\ u_field w = Some (fst p) /\ none_for (fst p) b /\
       bytes_ok (u_val w) /\ slot_A (fst p) (u_val w) = true /\ slot_V (fst p) (u_val w) = Ok (u_val u) /\
       bytes_ok (u_val u) /\ Z.of_nat (length (u_val u)) <= 65530).
  { intros u I. destruct (H1 u I) as (p & J & FC & _).
    pose proof FC as (x & sg & E & A & W).
    destruct (parsed_field cm us os (fst p) x sg V G E) as (a & w & b & D & F & N & _ & _ & _ & BW & AW & CW & Q).
    destruct (Q _ A) as (B & L). rewrite CW in A. exists p, a, w, b.
    assert (NM : fst p <> S2_ma_cert).
    { intros Em. rewrite Em in F. now apply field_not_ma in F. }
    split; [exact J|]. split; [exact FC|]. split; [|auto 20]. rewrite W. now apply shape_field. }
  exists vs. split; auto. split; auto. split; [|split; [|split; [|split]]].
  - rewrite Forall_forall. intros u I. destruct (K u I) as (p & _ & _ & _ & J & (x & sg & _ & _ & W) & _ & _ & _ & _ & _ & _ & _ & B & L).
    rewrite W. unfold dumped_ok. assert (EV : u_val (written (shape_of p) (u_val u)) = u_val u) by reflexivity.
    rewrite EV.
    assert (T : forallb (fun e : Z * Z * bool => match e with (f, a, g) =>
        (0 <=? f) && (f <? 65536) && (0 <=? a) && (a <? 255) && negb (Z.odd a) && Z.odd (a + 1) end) layout = true) by reflexivity.
    rewrite forallb_forall in T. specialize (T (shape_of p)). rewrite <- layout_order in T.
    specialize (T (in_map _ _ _ J)). destruct (shape_of p) as [[f a] g] eqn:SP. cbn [written u_fid u_app u_sig u_val] in *.
    rewrite !andb_true_iff in T. destruct T as (((((T1 & T2) & T3) & T4) & T5) & T6).
    apply Z.leb_le in T1, T3. apply Z.ltb_lt in T2, T4. apply negb_true_iff in T5. unfold byte_ok.
    split; [lia|]. split; [lia|]. split; [auto|]. split; [auto|]. split; [auto|]. destruct g; auto.
    split; [lia|]. split; [auto|]. split; [apply zeros_bytes_ok|]. rewrite zeros_length. lia.
  - rewrite Forall_forall. intros u I. destruct (K u I) as (p & _ & _ & _ & J & (x & sg & _ & _ & W) & _).
    rewrite W. assert (T : forallb (fun p => existsb (Z.eqb (fst (fst (shape_of p)))) driver_fids) marshal_order = true) by reflexivity.
    rewrite forallb_forall in T. specialize (T p J). apply existsb_eqb in T. unfold written. now destruct (shape_of p) as [[f a] g].
  - intros u I. destruct (K u I) as (p & a & w & b & J & R). exists p, a, w, b. tauto.
  - intros p J N. destruct (slot_of_card (card_of os) (fst p)) as [[x sg]|] eqn:E; [|now destruct N].
    destruct (H2 p x sg J E) as [[CK A]|R]; auto. exfalso.
    destruct (parsed_field cm us os (fst p) x sg V G E) as (_ & w & _ & _ & F & _ & _ & _ & _ & BW & AW & CW & _).
    rewrite CW in A. now apply (certificate_written p (u_val w) []) in A.
  - intros N. destruct (H3 S_icc Unsigned vs (S_icc, Unsigned) (tl marshal_order) eq_refl eq_refl eq_refl N eq_refl) as (u & vs2 & -> & (x & sg & _ & _ & W)).
    exists u, vs2. split; auto. rewrite W. reflexivity.
Qed.

(** A unit of a laid-out dump is reproduced. *)
Definition reproduced (cm : Z -> Z -> Z) (u : dumped) : Prop :=
  exists s x, field_of (u_fid u) (u_gen2 u) = Some s /\ unmarshal_content cm s (u_val u) = Ok x /\
    append_content s x = Ok (u_val u).

Lemma laid_out_marshal cm us os : Forall dumped_ok us -> Forall2 (gives cm) us os -> laid_out us layout ->
  Forall (reproduced cm) us -> marshal_file (Some (driver_file (card_of os))) = Ok (dump us).
Proof.
  intros V G LO R. rewrite marshal_driver_file. rewrite <- layout_order in LO.
  apply marshal_of_laid_out; auto.
  - apply incl_refl.
  - exact order_nodup.
  - eapply Forall_impl; [|exact R]. intros u (s & x & F & _). unfold u_field. rewrite F. discriminate.
  - eapply Forall_impl; [|exact V]. intros u (_ & _ & _ & _ & L & _). lia.
  - intros s _ N. now apply (card_none cm us os s).
  - intros s u F I. apply in_split in I as (a & b & E).
    destruct (laid_out_unique us marshal_order LO (incl_refl _) order_nodup a u b s E F) as [_ N].
    destruct (card_last cm us os s u a b G E F N) as (x & X & _ & Y). exists x, (u_signature u). split; auto.
    rewrite Forall_forall in R. destruct (R u) as (s' & x' & F' & X' & A').
    { subst us. apply in_app_iff. right. now left. }
    unfold u_field in F. rewrite F in F'. injection F' as <-. rewrite X in X'. apply Ok_inj in X'. subst x'. split; auto.
    intros k J CK. rewrite Forall_forall in V. destruct (V u) as (_ & _ & _ & B & _).
    { subst us. apply in_app_iff. right. now left. }
    pose proof (slot_codec cm s (u_val u) B) as C. rewrite X in C.
    now apply (certificate_nonempty (s, k) (u_val u) J CK).
Qed.

Lemma gives_in cm us os u : Forall2 (gives cm) us os -> In u us -> exists o, gives cm u o.
Proof. induction 1 as [|v o us os U G IH]; intros []; subst; eauto. Qed.

(** * C16: driver cards come back byte for byte *)

(** Exactly when: files in the order of the layout, signatures of 128 zero bytes,
    nothing the writer does not write, and every single file reproduced (C34 to C48
    say when).  Missing: all other dumps. *)
Theorem C16_round_trip_partial : forall cm us c, Forall dumped_ok us -> accepted cm us c ->
  (marshal_file (Some (driver_file c)) = Ok (dump us) <-> laid_out us layout /\ Forall (reproduced cm) us).
Proof.
  intros cm us c V A. apply accepted_iff in A as (os & ST & I & G & ->); auto. split.
  - intros M. destruct (marshal_parsed cm us os _ V G M) as (vs & D & LO & V' & _ & K & _).
    apply dump_inj in D; auto. subst vs. split; auto. rewrite Forall_forall. intros u J.
    destruct (K u J) as (p & _ & _ & _ & Jp & (x & sg & E & Ax & _) & F & _).
    apply in_split in J as (a & b & Eu). rewrite <- layout_order in LO.
    destruct (laid_out_unique us marshal_order LO (incl_refl _) order_nodup a u b (fst p) Eu F) as [_ N].
    destruct (card_last cm us os (fst p) u a b G Eu F N) as (y & Y & _ & Q). rewrite E in Q. injection Q as <- _.
    exists (fst p), x. auto.
  - intros [LO R]. now apply laid_out_marshal with (cm := cm).
Qed.
Print Assumptions C16_round_trip_partial.

Definition sample_dump : list dumped :=
  [icc_unit; ic_unit; mkDumped 0x0501 0 (zeros 10) (Some (1, zeros 128)); mkDumped 0x050E 0 [0; 0; 0; 1] None;
   mkDumped 0x0522 2 [0; 0] (Some (3, zeros 128))].

Lemma reproduced_b cm us : forallb (fun u => match u_field u with
    | Some s => match unmarshal_content cm s (u_val u) with
                | Ok x => match append_content s x with Ok v => if list_eq_dec Z.eq_dec v (u_val u) then true else false | _ => false end
                | _ => false
                end
    | None => false end) us = true -> Forall (reproduced cm) us.
Proof.
  rewrite forallb_forall, Forall_forall. intros H u I. specialize (H u I). unfold reproduced, u_field in *.
  destruct (field_of (u_fid u) (u_gen2 u)) as [s|]; [|discriminate]. exists s.
  destruct (unmarshal_content cm s (u_val u)) as [x|e|]; try discriminate. exists x.
  destruct (append_content s x) as [v|e|]; try discriminate. destruct (list_eq_dec Z.eq_dec v (u_val u)); [|discriminate].
  subst v. auto.
Qed.

Example C16_example : Forall dumped_ok sample_dump /\
  (exists c, accepted no_charmap sample_dump c /\ marshal_file (Some (driver_file c)) = Ok (dump sample_dump)) /\
  laid_out sample_dump layout /\ Forall (reproduced no_charmap) sample_dump.
Proof.
  destruct (driver_ok_accepted sample_dump) as (V & c & A); [vm_compute; reflexivity|].
  assert (LO : laid_out sample_dump layout).
  { unfold sample_dump, layout.
    refine (laid_take (zeros 25) _ (0x0002, 0, false) _ _). refine (laid_take [1; 2; 3; 4; 5; 6; 7; 8] _ (0x0005, 0, false) _ _).
    refine (laid_take (zeros 10) _ (0x0501, 0, true) _ _). do 10 apply laid_skip.
    refine (laid_take [0; 0; 0; 1] _ (0x050E, 0, false) _ _). do 3 apply laid_skip.
    refine (laid_take [0; 0] _ (0x0522, 2, true) _ _).
    repeat constructor. }
  assert (R : Forall (reproduced no_charmap) sample_dump) by (apply reproduced_b; vm_compute; reflexivity).
  split; auto. split; [|auto]. exists c. split; auto.
  apply (C16_round_trip_partial no_charmap sample_dump c V A). auto.
Qed.

(** The same card with a signature that is not all zeros. *)
Theorem C16_round_trip_refuted : exists d c d', bytes_ok d /\ unmarshal_file no_charmap d = Ok (driver_file c) /\
  marshal_file (Some (driver_file c)) = Ok d' /\ d' <> d.
Proof.
  set (us := [icc_unit; mkDumped 0x0501 0 (zeros 10) (Some (1, repeat 7 128))]).
  set (vs := [icc_unit; mkDumped 0x0501 0 (zeros 10) (Some (1, zeros 128))]).
  destruct (driver_ok_accepted us) as (V & c & A); [vm_compute; reflexivity|].
  exists (dump us), c, (dump vs). split; [now apply dump_bytes_ok|]. split; [exact A|].
  assert (Q : match unmarshal_file no_charmap (dump us) with Ok f => marshal_file (Some f) | _ => fail end = Ok (dump vs))
    by (vm_compute; reflexivity).
  split; [unfold accepted in A; now rewrite A in Q|]. intros E. vm_compute in E. discriminate.
Qed.
Print Assumptions C16_round_trip_refuted.

(** ** Reading the output again *)

Lemma icc_field u : u_fid u = 0x0002 -> u_field u = Some S_icc.
Proof. intros E. unfold u_field. rewrite E. now destruct (u_gen2 u). Qed.

Lemma icc_present cm us os : Forall2 (gives cm) us os -> starts_with_icc us -> slot_of_card (card_of os) S_icc <> None.
Proof.
  intros G (u & us' & -> & F) N. apply icc_field in F.
  destruct (none_for_dec S_icc (u :: us')) as [M|(a & w & b & D & Fw & M)].
  - inversion M as [|? ? X]; subst. contradiction.
  - destruct (card_last cm (u :: us') os S_icc w a b G D Fw M) as (x & _ & _ & Y). congruence.
Qed.

Lemma regive cm us p : (forall u, In u us -> exists s, u_field u = Some s /\ slot_A s (u_val u) = true /\
    bytes_ok (u_val u) /\ (rejects_signature s = true -> u_sig u = None)) -> p = us -> exists os, Forall2 (gives cm) us os.
Proof.
  intros H _. induction us as [|u us IH]; [exists []; constructor|].
  destruct IH as [os G]; [intros v I; apply H; now right|].
  destruct (H u (or_introl eq_refl)) as (s & F & A & B & RJ).
  pose proof (slot_codec cm s (u_val u) B) as C. destruct (unmarshal_content cm s (u_val u)) as [x|e|] eqn:E; [|congruence|destruct C].
  exists (Some (Filed s (x, u_signature u)) :: os). constructor; auto. unfold gives. rewrite F. exists x. auto.
Qed.

Lemma order_unsigned p : In p marshal_order -> rejects_signature (fst p) = true -> snd (shape_of p) = false.
Proof. intros I R. repeat destruct I as [<-|I]; try reflexivity; try discriminate. destruct I. Qed.

(** A unit the writer can have written: read again whatever its signature. *)
Lemma written_unsigned cm us os out vs : Forall2 (gives cm) us os -> out = dump vs ->
  (forall u, In u vs -> exists p, In p marshal_order /\ from_card (card_of os) u p) ->
  forall u s, In u vs -> u_field u = Some s -> rejects_signature s = true -> u_sig u = None.
Proof.
  intros _ _ K u s I F R. destruct (K u I) as (p & J & (x & sg & E & _ & W)).
  rewrite W. rewrite W in F.
  assert (NM : fst p <> S2_ma_cert \/ s = S2_ma_cert \/ fst p = S2_ma_cert) by (destruct (slot_eq_dec (fst p) S2_ma_cert); auto).
  assert (PU : snd (shape_of p) = false).
  { destruct NM as [NM|[->|NM]].
    - pose proof (shape_field p J NM (u_val u)) as Q. rewrite F in Q. injection Q as ->. now apply order_unsigned.
    - now apply field_not_ma in F.
    - destruct p as [s' k]. cbn [fst] in NM. subst s'.
      repeat destruct J as [J|J]; try discriminate; try (injection J as <-; reflexivity). destruct J. }
  unfold written. destruct (shape_of p) as [[f a] g]. cbn [snd] in PU. now subst g.
Qed.

(** The output of a parsed card is read again exactly if every file of it is. *)
Lemma reread cm us os out : Forall dumped_ok us -> starts_with_icc us -> Forall2 (gives cm) us os ->
  marshal_file (Some (driver_file (card_of os))) = Ok out ->
  exists vs, out = dump vs /\ Forall dumped_ok vs /\ laid_out vs layout /\
    (forall u, In u vs -> exists p a w b, In p marshal_order /\ from_card (card_of os) u p /\ u_field u = Some (fst p) /\
       us = a ++ w :: b /\ u_field w = Some (fst p) /\ none_for (fst p) b /\
       bytes_ok (u_val w) /\ slot_A (fst p) (u_val w) = true /\ slot_V (fst p) (u_val w) = Ok (u_val u)) /\
    (forall p, In p marshal_order -> slot_of_card (card_of os) (fst p) <> None -> exists u, In u vs /\ from_card (card_of os) u p) /\
    (forall c', unmarshal_file cm out = Ok (driver_file c') -> exists os', Forall2 (gives cm) vs os' /\ c' = card_of os' /\
       starts_with_icc vs) /\
    ((forall u s, In u vs -> u_field u = Some s -> slot_A s (u_val u) = true) ->
       exists os', Forall2 (gives cm) vs os' /\ unmarshal_file cm out = Ok (driver_file (card_of os'))).
Proof.
  intros V ST G M. destruct (marshal_parsed cm us os out V G M) as (vs & -> & LO & V' & D & K & K2 & IC).
  assert (B : forall u, In u vs -> bytes_ok (u_val u)).
  { rewrite Forall_forall in V'. intros u I. now destruct (V' u I) as (_ & _ & _ & B & _). }
  exists vs. split; auto. split; auto. split; auto. split; auto. split; auto. split.
  - intros c' U. apply (accepted_iff cm vs c' V') in U as (os' & S' & _ & G' & ->). exists os'. auto.
  - intros AA. destruct (regive cm vs vs) as [os' G']; auto.
    { intros u I. destruct (K u I) as (p & _ & _ & _ & J & FC & F & _). exists (fst p). split; auto. split; [now apply AA|]. split; [now apply B|].
      intros R. apply (written_unsigned cm us os (dump vs) vs G eq_refl) with (s := fst p); auto.
      intros w Iw. destruct (K w Iw) as (q & _ & _ & _ & Jq & FCq & _). eauto. }
    exists os'. split; auto. apply accepted_iff; auto. exists os'. split; auto. apply IC. now apply (icc_present cm us).
Qed.

Lemma second_generation_unwritten p : In p marshal_order -> fst p <> S2_events /\ fst p <> S2_faults.
Proof. intros I. repeat destruct I as [<-|I]; try (split; discriminate). destruct I. Qed.

Lemma same_last {us a a' : list dumped} {u u' b b' s} : us = a ++ u :: b -> us = a' ++ u' :: b' ->
  u_field u = Some s -> u_field u' = Some s -> none_for s b -> none_for s b' -> u' = u /\ b' = b.
Proof.
  intros E E'. rewrite E in E'. clear E us. revert a' E'.
  induction a as [|y a IH]; intros [|y' a'] EQ Fv Fv' Nr Nr'; cbn [List.app] in EQ; injection EQ as E1 E2.
  - auto.
  - subst. exfalso. unfold none_for in Nr. rewrite Forall_forall in Nr. apply (Nr u'); auto. apply in_app_iff. right. now left.
  - subst. exfalso. unfold none_for in Nr'. rewrite Forall_forall in Nr'. apply (Nr' u); auto. apply in_app_iff. right. now left.
  - subst. eapply IH; eauto.
Qed.

Lemma write_slot_ok c p : is_ok (write_slot c p) = true <->
  match slot_of_card c (fst p) with None => True | Some (x, _) => is_ok (append_content (fst p) x) = true end.
Proof.
  unfold write_slot. destruct (slot_of_card c (fst p)) as [[x sg]|]; [|split; auto].
  destruct (append_content (fst p) x); cbn [bind is_ok]; split; auto; discriminate.
Qed.

(** The written card, if its files are accepted: whether it is written again, and
    what then. *)
Lemma rewritten cm us os : Forall dumped_ok us -> Forall2 (gives cm) us os -> laid_out us layout ->
  (forall u, In u us -> exists p, In p marshal_order /\ u_field u = Some (fst p)) ->
  (is_ok (marshal_file (Some (driver_file (card_of os)))) = true <->
   forall u s, In u us -> u_field u = Some s -> is_ok (slot_V s (u_val u)) = true).
Proof.
  intros V G LO KP. rewrite marshal_driver_file, is_ok_concat, Forall_forall. rewrite <- layout_order in LO. split.
  - intros H u s I F. destruct (KP u I) as (p & J & Fp). assert (ES : fst p = s) by congruence. specialize (H p J).
    apply write_slot_ok in H. rewrite ES in H. apply in_split in I as (a & b & E).
    destruct (laid_out_unique us marshal_order LO (incl_refl _) order_nodup a u b s E F) as [_ N].
    destruct (card_last cm us os s u a b G E F N) as (x & X & _ & Q). rewrite Q in H.
    assert (B : bytes_ok (u_val u)).
    { subst us. apply Forall_app in V as [_ V]. inversion V as [|? ? (_ & _ & _ & B & _) _]; subst. exact B. }
    destruct (slot_writes cm s (u_val u) x B X) as [_ W]. now rewrite <- W.
  - intros H p J. apply write_slot_ok. destruct (slot_of_card (card_of os) (fst p)) as [[x sg]|] eqn:E; auto.
    destruct (parsed_field cm us os (fst p) x sg V G E) as (a & w & b & D & F & N & _ & _ & _ & BW & AW & CW & _).
    rewrite CW. apply H; auto. subst us. apply in_app_iff. right. now left.
Qed.

(** * C19: one cycle normalises *)

(** Two cycles do: if the output can be read and that written, the result is final.
    It can, exactly if no unused event or fault record of the card comes to show the
    bytes of an impossible record (C38 says which bytes it shows).  One cycle is
    enough for [plain] cards.  Missing: cards that are not. *)
Theorem C19_normal_form_partial : forall cm us c out, Forall dumped_ok us -> accepted cm us c ->
  marshal_file (Some (driver_file c)) = Ok out ->
  (forall c' out', unmarshal_file cm out = Ok (driver_file c') -> marshal_file (Some (driver_file c')) = Ok out' ->
     exists c'', unmarshal_file cm out' = Ok (driver_file c'') /\ marshal_file (Some (driver_file c'')) = Ok out') /\
  ((exists c' out', unmarshal_file cm out = Ok (driver_file c') /\ marshal_file (Some (driver_file c')) = Ok out') <->
   forall a u b s, us = a ++ u :: b -> field_of (u_fid u) (u_gen2 u) = Some s -> In s [S_events; S_faults] ->
     Forall (fun w => field_of (u_fid w) (u_gen2 w) <> Some s) b -> shows_records (u_val u)) /\
  (Forall plain us ->
   exists c', unmarshal_file cm out = Ok (driver_file c') /\ marshal_file (Some (driver_file c')) = Ok out).
Proof.
  intros cm us c out V A M. apply accepted_iff in A as (os & ST & I & G & ->); auto.
  destruct (reread cm us os out V ST G M) as (vs & -> & V' & LO & K & K2 & R1 & R2).
  assert (B : forall u, In u vs -> bytes_ok (u_val u)).
  { rewrite Forall_forall in V'. intros u J. now destruct (V' u J) as (_ & _ & _ & B & _). }
  assert (KP : forall u, In u vs -> exists p, In p marshal_order /\ u_field u = Some (fst p)).
  { intros u J. destruct (K u J) as (p & _ & _ & _ & Jp & _ & F & _). eauto. }
  assert (AG : forall os', Forall2 (gives cm) vs os' -> forall u s, In u vs -> u_field u = Some s -> slot_A s (u_val u) = true).
  { intros os' G' u s J F. destruct (gives_in cm vs os' u G' J) as (o & GU). unfold gives in GU. rewrite F in GU.
    destruct GU as (x & X & _). now apply (slot_writes cm s (u_val u) x (B u J) X). }
  split; [|split].
  - intros c' out' U M'. destruct (R1 c' U) as (os' & G' & -> & S'').
    destruct (reread cm vs os' out' V' S'' G' M') as (ws & -> & V2 & LO2 & Kw & _ & _ & R3).
    assert (FIN : forall u s, In u ws -> u_field u = Some s -> slot_A s (u_val u) = true /\ slot_V s (u_val u) = Ok (u_val u)).
    { intros u s J F. destruct (Kw u J) as (p & a & w & b & Jp & _ & Fp & D & Fw & N & BW & AW & VW).
      assert (ES : fst p = s) by congruence. subst s.
      assert (Iw : In w vs) by (rewrite D; apply in_app_iff; right; now left).
      destruct (K w Iw) as (q & a0 & w0 & b0 & Jq & _ & Fq & D0 & Fw0 & N0 & BW0 & AW0 & VW0).
      assert (EQ : fst q = fst p) by congruence. rewrite EQ in *.
      now apply (V_two_cycles (fst p) (u_val w0) (u_val w) (u_val u)). }
    destruct R3 as (os3 & G3 & U3). { intros u s J F. now apply FIN. }
    exists (card_of os3). split; [exact U3|]. apply laid_out_marshal with (cm := cm); auto.
    rewrite Forall_forall. intros u J. destruct (Kw u J) as (p & _ & _ & _ & Jp & _ & Fp & _).
    destruct (gives_in cm ws os3 u G3 J) as (o & GU). unfold gives in GU. rewrite Fp in GU. destruct GU as (x & X & _).
    exists (fst p), x. split; [exact Fp|]. split; auto.
    assert (Bu : bytes_ok (u_val u)). { rewrite Forall_forall in V2. now destruct (V2 u J) as (_ & _ & _ & Bu & _). }
    destruct (slot_writes cm (fst p) (u_val u) x Bu X) as [_ ->]. now apply FIN.
  - assert (T : (forall u s, In u vs -> u_field u = Some s -> slot_A s (u_val u) = true /\ is_ok (slot_V s (u_val u)) = true) <->
      forall a u b s, us = a ++ u :: b -> u_field u = Some s -> In s [S_events; S_faults] -> none_for s b -> shows_records (u_val u)).
    { split.
      - intros Q a u b s D F J N.
        assert (JO : exists k, In (s, k) marshal_order).
        { destruct J as [<-|[<-|[]]]; eexists; repeat (try (left; reflexivity); right). }
        destruct JO as [k JO].
        destruct (card_last cm us os s u a b G D F N) as (x & X & _ & Y).
        destruct (K2 (s, k) JO) as (v & Iv & FC); [cbn [fst]; congruence|].
        destruct (K v Iv) as (p & a0 & w0 & b0 & Jp & FCp & Fv & D0 & Fw0 & N0 & BW0 & AW0 & VW0).
        assert (Fvs : u_field v = Some s).
        { destruct FC as (x' & sg' & _ & _ & W). rewrite W. apply (shape_field (s, k)); auto. cbn [fst]. destruct J as [<-|[<-|[]]]; discriminate. }
        assert (EP : fst p = s) by congruence. rewrite EP in *.
        destruct (same_last D D0 F Fw0 N N0) as [-> _].
        pose proof (Q v s Iv Fvs) as Q1.
        destruct J as [<-|[<-|[]]]; cbn [slot_A slot_V] in *; now apply (events_cycle (u_val u) (u_val v)).
      - intros Q u s J F. destruct (K u J) as (p & a0 & w0 & b0 & Jp & FCp & Fv & D0 & Fw0 & N0 & BW0 & AW0 & VW0).
        assert (EP : fst p = s) by congruence. rewrite EP in *.
        destruct (in_dec slot_eq_dec s [S_events; S_faults]) as [EV|NE].
        + pose proof (Q a0 w0 b0 s D0 Fw0 EV N0) as Q1.
          destruct EV as [<-|[<-|[]]]; cbn [slot_A slot_V] in *; now apply (events_cycle (u_val w0) (u_val u)).
        + apply (V_again s (u_val w0) (u_val u)); auto. destruct (second_generation_unwritten p Jp) as [N2 N3].
          rewrite EP in N2, N3. intros [X|[X|[X|[X|[]]]]]; subst s; try congruence; apply NE; cbn; tauto. }
    transitivity (forall u s, In u vs -> u_field u = Some s -> slot_A s (u_val u) = true /\ is_ok (slot_V s (u_val u)) = true).
    2:{ exact T. }
    clear T. split.
    + intros (c' & out' & U & M'). destruct (R1 c' U) as (os' & G' & -> & _). intros u s J F.
      split; [now apply (AG os' G')|]. apply (proj1 (rewritten cm vs os' V' G' LO KP)); auto. now rewrite M'.
    + intros Q. destruct R2 as (os' & G' & U). { intros u s J F. now apply Q. }
      pose proof (proj2 (rewritten cm vs os' V' G' LO KP) (fun u s J F => proj2 (Q u s J F))) as OK.
      destruct (marshal_file (Some (driver_file (card_of os')))) as [out'| |] eqn:E; try discriminate.
      exists (card_of os'), out'. split; [exact U|exact E].
  - intros P.
    assert (FIN : forall u s, In u vs -> u_field u = Some s -> slot_A s (u_val u) = true /\ slot_V s (u_val u) = Ok (u_val u)).
    { intros u s J F. destruct (K u J) as (p & a & w & b & Jp & _ & Fp & D & Fw & N & BW & AW & VW).
      assert (ES : fst p = s) by congruence. subst s. apply (V_plain (fst p) (u_val w)); auto. apply plain_P; auto.
      rewrite Forall_forall in P. apply P. rewrite D. apply in_app_iff. right. now left. }
    destruct R2 as (os' & G' & U). { intros u s J F. now apply FIN. }
    exists (card_of os'). split; [exact U|]. apply laid_out_marshal with (cm := cm); auto.
    rewrite Forall_forall. intros u J. destruct (K u J) as (p & _ & _ & _ & Jp & _ & Fp & _).
    destruct (gives_in cm vs os' u G' J) as (o & GU). unfold gives in GU. rewrite Fp in GU. destruct GU as (x & X & _).
    exists (fst p), x. split; [exact Fp|]. split; auto.
    destruct (slot_writes cm (fst p) (u_val u) x (B u J) X) as [_ ->]. now apply FIN.
Qed.
Print Assumptions C19_normal_form_partial.

(** A card whose driver identification is 'A\x80BBBBBBBBB€': the output is
    accepted, but writing what was read from it gives other bytes. *)
Theorem C19_normal_form_refuted : exists us c d' c' d'',
  Forall dumped_ok us /\ accepted no_charmap us c /\ marshal_file (Some (driver_file c)) = Ok d' /\
  unmarshal_file no_charmap d' = Ok (driver_file c') /\ marshal_file (Some (driver_file c')) = Ok d'' /\ d'' <> d'.
Proof.
  set (v := Props_Ident.ident_sample [65;128;66;66;66;66;66;66;66;66;66;226;130;172; 48;49]).
  set (us := [icc_unit; mkDumped 0x0520 0 v None]).
  destruct (driver_ok_accepted us) as (V & c & A); [vm_compute; reflexivity|].
  set (run := fun d => match unmarshal_file no_charmap d with Ok f => marshal_file (Some f) | _ => fail end).
  set (d' := match run (dump us) with Ok d => d | _ => [] end).
  set (d'' := match run d' with Ok d => d | _ => [] end).
  assert (R1 : run (dump us) = Ok d') by (vm_compute; reflexivity).
  assert (R2 : run d' = Ok d'') by (vm_compute; reflexivity).
  assert (R3 : match unmarshal_file no_charmap d' with Ok f => file_type f =? FILE_DRIVER_CARD | _ => false end = true) by (vm_compute; reflexivity).
  assert (R4 : bytes_okb d' = true) by (vm_compute; reflexivity). apply bytes_okb_ok in R4.
  destruct (driver_result no_charmap d' R4 R3) as [c' A'].
  assert (NE : (if list_eq_dec Z.eq_dec d'' d' then true else false) = false) by (vm_compute; reflexivity).
  exists us, c, d', c', d''. split; [exact V|]. split; [exact A|].
  clearbody d'' d'. unfold run in R1, R2. unfold accepted in A. rewrite A in R1. rewrite A' in R2.
  split; [exact R1|]. split; [exact A'|]. split; [exact R2|]. intros E. destruct (list_eq_dec Z.eq_dec d'' d'); [discriminate|contradiction].
Qed.
Print Assumptions C19_normal_form_refuted.

(** 86 unused event records and five bytes more: the scanner moves those over the
    first record, so the file written has an event of an unknown type and is
    rejected. *)
Theorem C19_output_rejected_refuted : exists us c d' e,
  Forall dumped_ok us /\ accepted no_charmap us c /\ marshal_file (Some (driver_file c)) = Ok d' /\
  unmarshal_file no_charmap d' = Err e.
Proof.
  set (us := [icc_unit; mkDumped 0x0502 0 (zeros 2064 ++ [0xFF; 1; 1; 1; 1]) None]).
  destruct (driver_ok_accepted us) as (V & c & A); [vm_compute; reflexivity|].
  set (run := fun d => match unmarshal_file no_charmap d with Ok f => marshal_file (Some f) | _ => fail end).
  set (d' := match run (dump us) with Ok d => d | _ => [] end).
  assert (R1 : run (dump us) = Ok d') by (vm_compute; reflexivity).
  assert (R2 : match unmarshal_file no_charmap d' with Err _ => true | _ => false end = true) by (vm_compute; reflexivity).
  clearbody d'. assert (R3 : exists e, unmarshal_file no_charmap d' = Err e).
  { clear - R2. destruct (unmarshal_file no_charmap d') as [|e|]; [discriminate R2|now exists e|discriminate R2]. }
  destruct R3 as [e R3]. exists us, c, d', e. split; [exact V|]. split; [exact A|]. unfold run in R1. unfold accepted in A. rewrite A in R1. split; [exact R1|exact R3].
Qed.
Print Assumptions C19_output_rejected_refuted.

(** * C114: two cycles normalise *)

(** No condition is left if the event and fault files consist of whole records: the
    output is read and written again, and that output is final. *)
Theorem C114_two_cycles : forall cm us c out, Forall dumped_ok us -> accepted cm us c ->
  (forall u, In u us -> In (u_fid u) [0x0502; 0x0503] -> (length (u_val u) mod 24 = 0)%nat) ->
  marshal_file (Some (driver_file c)) = Ok out ->
  exists c' out' c'', unmarshal_file cm out = Ok (driver_file c') /\ marshal_file (Some (driver_file c')) = Ok out' /\
    unmarshal_file cm out' = Ok (driver_file c'') /\ marshal_file (Some (driver_file c'')) = Ok out'.
Proof.
  intros cm us c out V A W M. destruct (C19_normal_form_partial cm us c out V A M) as (N1 & N2 & _).
  destruct (proj2 N2) as (c' & out' & U & M').
  { intros a u b s D F J N. clear N1 N2.
    assert (I : In u us) by (rewrite D; apply in_app_iff; right; now left).
    apply accepted_iff in A as (os & ST & _ & G & ->); auto.
    destruct (card_last cm us os s u a b G D F N) as (x & X & _ & Y).
    destruct (parsed_field cm us os s x _ V G Y) as (a' & u' & b' & D' & F' & N' & _ & _ & _ & BW & AW & CW & _).
    destruct (same_last D D' F F' N N') as [-> _]. rewrite marshal_driver_file in M.
    assert (OK : is_ok (slot_V s (u_val u)) = true).
    { assert (JO : exists k, In (s, k) marshal_order).
      { destruct J as [<-|[<-|[]]]; eexists; repeat (try (left; reflexivity); right). }
      destruct JO as [k JO]. assert (Q : is_ok (concat_res (write_slot (card_of os)) marshal_order) = true) by (now rewrite M).
      rewrite is_ok_concat, Forall_forall in Q. specialize (Q _ JO). apply write_slot_ok in Q. cbn [fst] in Q. rewrite Y in Q.
      now rewrite <- CW. }
    destruct (slot_V s (u_val u)) as [v| |] eqn:EV; try discriminate.
    assert (L : (length (u_val u) mod 24 = 0)%nat).
    { apply W; auto. clear - F J. unfold u_field, field_of in F.
      destruct (find _ fields_table) as [[[f s1] s2]|] eqn:Q; [|discriminate]. apply find_some in Q as [Q E].
      cbn [fst] in E. apply Z.eqb_eq in E. rewrite <- E. clear E.
      assert (T : forallb (fun p => match p with (f, s1, s2) =>
          (existsb (Z.eqb f) [0x0502; 0x0503]) ||
          negb (existsb (fun o => match o with Some s => if in_dec slot_eq_dec s [S_events; S_faults] then true else false | None => false end) [s1; s2])
        end) fields_table = true) by (vm_compute; reflexivity).
      rewrite forallb_forall in T. specialize (T _ Q). cbv beta iota in T. apply orb_true_iff in T as [T|T]; [now apply existsb_eqb in T|].
      exfalso. apply negb_true_iff in T. cbn [existsb] in T. rewrite orb_false_r in T. apply orb_false_iff in T as [T1 T2].
      destruct (u_gen2 u); rewrite F in *; destruct (in_dec slot_eq_dec s [S_events; S_faults]); try discriminate; contradiction. }
    destruct J as [<-|[<-|[]]]; cbn [slot_A slot_V] in *; now apply (whole_shows_records (u_val u) v). }
  destruct (N1 c' out' U M') as (c'' & U' & M''). exists c', out', c''. auto.
Qed.
Print Assumptions C114_two_cycles.

(** One is not enough for this card (C19). *)
Example C114_example : exists us c out c', Forall dumped_ok us /\ accepted no_charmap us c /\
  (forall u, In u us -> In (u_fid u) [0x0502; 0x0503] -> (length (u_val u) mod 24 = 0)%nat) /\
  marshal_file (Some (driver_file c)) = Ok out /\ unmarshal_file no_charmap out = Ok (driver_file c') /\
  marshal_file (Some (driver_file c')) <> Ok out.
Proof.
  set (us := [icc_unit; mkDumped 0x0502 0 (flat_map (fun i => [0; 0; 0; 0; 0; Z.of_nat i] ++ repeat 3 18) (seq 0 171)) None;
    mkDumped 0x0520 0 (Props_Ident.ident_sample [65;128;66;66;66;66;66;66;66;66;66;226;130;172; 48;49]) None]).
  destruct (driver_ok_accepted us) as (V & c & A); [vm_compute; reflexivity|].
  set (run := fun d => match unmarshal_file no_charmap d with Ok f => marshal_file (Some f) | _ => fail end).
  set (d' := match run (dump us) with Ok d => d | _ => [] end).
  set (d'' := match run d' with Ok d => d | _ => [] end).
  assert (R1 : run (dump us) = Ok d') by (vm_compute; reflexivity).
  assert (R2 : run d' = Ok d'') by (vm_compute; reflexivity).
  assert (R3 : match unmarshal_file no_charmap d' with Ok f => file_type f =? FILE_DRIVER_CARD | _ => false end = true) by (vm_compute; reflexivity).
  assert (R4 : bytes_okb d' = true) by (vm_compute; reflexivity). apply bytes_okb_ok in R4.
  destruct (driver_result no_charmap d' R4 R3) as [c' A'].
  assert (NE : (if list_eq_dec Z.eq_dec d'' d' then true else false) = false) by (vm_compute; reflexivity).
  assert (MU : forallb (fun u => negb (existsb (Z.eqb (u_fid u)) [0x0502; 0x0503]) || (length (u_val u) mod 24 =? 0)%nat) us = true)
    by (vm_compute; reflexivity).
  exists us, c, d', c'. split; [exact V|]. split; [exact A|]. split.
  { intros u I J. rewrite forallb_forall in MU. specialize (MU u I). apply orb_true_iff in MU as [MU|MU].
    - apply negb_true_iff in MU. exfalso. apply existsb_eqb in J. congruence.
    - now apply Nat.eqb_eq in MU. }
  clearbody d'' d'. unfold run in R1, R2. unfold accepted in A. rewrite A in R1. rewrite A' in R2.
  split; [exact R1|]. split; [exact A'|]. intros E. pose proof (eq_trans (eq_sym R2) E) as E2. apply Ok_inj in E2.
  destruct (list_eq_dec Z.eq_dec d'' d'); [discriminate|contradiction].
Qed.

(** A card out of layout order, with signatures and repeated files. *)
Definition shuffled_dump : list dumped :=
  [icc_unit; mkDumped 0x0522 2 [0; 0] (Some (3, repeat 9 64)); mkDumped 0x0501 0 (zeros 10) (Some (1, repeat 7 128));
   mkDumped 0x050E 0 [0; 0; 0; 1] None; ic_unit; mkDumped 0x0501 0 (repeat 1 10) None; mkDumped 0x050E 2 [0; 0; 0; 2] None].

Lemma shuffled_plain : Forall plain shuffled_dump.
Proof. repeat (apply Forall_cons; [exact I|]); apply Forall_nil. Qed.

Lemma marshal_result us : driver_ok us = true ->
  match unmarshal_file no_charmap (dump us) with Ok f => is_ok (marshal_file (Some f)) | _ => false end = true ->
  Forall dumped_ok us /\ exists c out, accepted no_charmap us c /\ marshal_file (Some (driver_file c)) = Ok out.
Proof.
  intros D M. destruct (driver_ok_accepted us D) as (V & c & A). split; auto. unfold accepted in A. rewrite A in M.
  destruct (marshal_file _) as [out|e|] eqn:E in M; try discriminate. exists c, out. auto.
Qed.

Example C19_example : Forall dumped_ok shuffled_dump /\ Forall plain shuffled_dump /\
  exists c out, accepted no_charmap shuffled_dump c /\ marshal_file (Some (driver_file c)) = Ok out.
Proof.
  destruct (marshal_result shuffled_dump) as (V & R); [vm_compute; reflexivity|vm_compute; reflexivity|].
  split; [exact V|]. split; [exact shuffled_plain|exact R].
Qed.

(** * C17: signatures *)

(** Writing does not look at signatures. *)
Theorem C17_signatures_ignored : forall c c',
  (forall s, option_map fst (slot_of_card c s) = option_map fst (slot_of_card c' s)) ->
  marshal_file (Some (driver_file c)) = marshal_file (Some (driver_file c')).
Proof.
  intros c c' H. rewrite !marshal_driver_file. induction marshal_order as [|p l IH]; cbn [concat_res]; auto.
  rewrite IH. f_equal. unfold write_slot. specialize (H (fst p)).
  destruct (slot_of_card c (fst p)) as [[x g]|], (slot_of_card c' (fst p)) as [[x' g']|]; try discriminate; auto.
  cbn [option_map fst] in H. injection H as ->. reflexivity.
Qed.
Print Assumptions C17_signatures_ignored.

(** What becomes of them: after writing and reading again, every file the writer
    signs carries 128 zero bytes, whatever it carried before, and every other one
    carries none.  So a signature comes back iff it was 128 zero bytes.  (C19 says
    when the output is read again.)  Missing: all other signatures. *)
Theorem C17_signatures_partial : forall cm us c out c', Forall dumped_ok us -> accepted cm us c ->
  marshal_file (Some (driver_file c)) = Ok out -> unmarshal_file cm out = Ok (driver_file c') ->
  forall f a g s x sg, In (f, a, g) layout -> field_of f (Z.odd (a / 2)) = Some s ->
    slot_of_card c s = Some (x, sg) ->
    exists x', slot_of_card c' s = Some (x', if g then Some (zeros 128) else None).
Proof.
  intros cm us c out c' V A M U. apply accepted_iff in A as (os & ST & I & G & ->); auto.
  destruct (reread cm us os out V ST G M) as (vs & -> & V' & LO & K1 & K2 & R1 & _).
  destruct (R1 c' U) as (os' & G' & -> & _). intros f a g s x sg J F E.
  rewrite <- layout_order in J. apply in_map_iff in J as (p & SP & J).
  assert (FP : fst p = s).
  { assert (NM : fst p <> S2_ma_cert).
    { intros Em. repeat destruct J as [<-|J]; try discriminate; try destruct J. injection SP as <- <- <-. discriminate. }
    pose proof (shape_field p J NM []) as Q. rewrite SP in Q. unfold u_field, u_gen2 in Q. cbn [written u_fid u_app] in Q.
    rewrite F in Q. now injection Q. }
  subst s. destruct (K2 p J) as (u & Iu & (y & sy & Ey & Ay & W)); [congruence|].
  assert (Fu : u_field u = Some (fst p)).
  { rewrite W, SP. unfold u_field, u_gen2. cbn [written u_fid u_app]. exact F. }
  apply in_split in Iu as (l & r & D).
  rewrite <- layout_order in LO.
  destruct (laid_out_unique vs marshal_order LO (incl_refl _) order_nodup l u r (fst p) D Fu) as [_ N].
  destruct (card_last cm vs os' (fst p) u l r G' D Fu N) as (x' & _ & _ & Q). exists x'. rewrite Q. f_equal. f_equal.
  rewrite W, SP. unfold u_signature. cbn [written u_sig]. now destruct g.
Qed.
Print Assumptions C17_signatures_partial.

Example C17_example : exists c x out c', accepted no_charmap shuffled_dump c /\
  marshal_file (Some (driver_file c)) = Ok out /\ unmarshal_file no_charmap out = Ok (driver_file c') /\
  In (0x0522, 2, true) layout /\ field_of 0x0522 (Z.odd (2 / 2)) = Some S2_conditions /\
  slot_of_card c S2_conditions = Some (x, Some (repeat 9 64)).
Proof.
  destruct (marshal_result shuffled_dump) as (V & c & out & A & M); [vm_compute; reflexivity|vm_compute; reflexivity|].
  destruct (C19_normal_form_partial no_charmap shuffled_dump c out V A M) as (_ & _ & N).
  destruct (N shuffled_plain) as (c' & U & _). clear N.
  pose proof A as Q. apply accepted_iff in Q as (os & _ & _ & G & E); auto.
  destruct (card_last no_charmap shuffled_dump os S2_conditions (mkDumped 0x0522 2 [0; 0] (Some (3, repeat 9 64))) [icc_unit]
     (tl (tl shuffled_dump)) G) as (x & _ & _ & X); [reflexivity|reflexivity| |].
  { repeat (apply Forall_cons; [discriminate|]); apply Forall_nil. }
  exists c, x, out, c'. split; [exact A|]. split; [exact M|]. split; [exact U|].
  split; [now repeat (try (left; reflexivity); right)|]. split; [reflexivity|].
  subst c. exact X.
Qed.

Theorem C17_signatures_refuted : exists us c out c' x x', Forall dumped_ok us /\ accepted no_charmap us c /\
  slot_of_card c S_app_id = Some (x, Some (repeat 7 128)) /\
  marshal_file (Some (driver_file c)) = Ok out /\
  unmarshal_file no_charmap out = Ok (driver_file c') /\ slot_of_card c' S_app_id = Some (x', Some (zeros 128)).
Proof.
  set (u := mkDumped 0x0501 0 (zeros 10) (Some (1, repeat 7 128))).
  destruct (marshal_result [icc_unit; u]) as (V & c & out & A & M); [vm_compute; reflexivity|vm_compute; reflexivity|].
  assert (P : Forall plain [icc_unit; u]) by (repeat (apply Forall_cons; [exact I|]); apply Forall_nil).
  pose proof A as Q. apply accepted_iff in Q as (os & _ & _ & G & E); auto.
  destruct (card_last no_charmap [icc_unit; u] os S_app_id u [icc_unit] [] G) as (x & _ & _ & X); [reflexivity|reflexivity|constructor|].
  rewrite <- E in X.
  destruct (C19_normal_form_partial no_charmap _ c out V A M) as (_ & _ & N). destruct (N P) as (c' & A' & _). clear N.
  pose proof (C17_signatures_partial no_charmap _ c out c' V A M A') as H.
  destruct (H 0x0501 0 true S_app_id x (Some (repeat 7 128))) as [x' X']; [now repeat (try (left; reflexivity); right)|reflexivity|exact X|].
  exists [icc_unit; u], c, out, c', x, x'. split; [exact V|]. split; [exact A|]. split; [exact X|].
  split; [exact M|]. split; [exact A'|exact X'].
Qed.
Print Assumptions C17_signatures_refuted.

(** * C18: second-generation files *)

(** The files of the second-generation application that are written. *)
Definition second_generation : list (slot * Z) :=
  [(S2_app_id, 0x0501); (S2_vehicles, 0x0505); (S2_places, 0x0506); (S2_conditions, 0x0522); (S2_units, 0x0523);
   (S2_gnss, 0x0524); (S2_app_v2, 0x0525); (S2_ma_cert, 0xC100); (S2_sign_cert, 0xC101); (S2_ca_cert, 0xC108);
   (S2_link_cert, 0xC109)].

(** The eight that are not. *)
Definition unwritten : list slot :=
  [S2_licence; S2_identification; S2_events; S2_faults; S2_activity; S2_usage; S2_control; S2_download].

Lemma dump_split a u b : dump (a ++ u :: b) = concat (map enc (flat_map u_tlvs a)) ++
  enc (mkTlv (u_fid u) (u_app u) (u_val u)) ++
  concat (map enc (match u_sig u with None => [] | Some (g, s) => [mkTlv (u_fid u) g s] end ++ flat_map u_tlvs b)).
Proof.
  unfold dump. rewrite flat_map_app, map_app, concat_app. f_equal.
Qed.

(** Missing: the unwritten ones, and contents over 65535 bytes (C66). *)
Theorem C18_second_generation_partial : forall c out, short_fields c -> marshal_file (Some (driver_file c)) = Ok out ->
  forall s f x sg, In (s, f) second_generation -> slot_of_card c s = Some (x, sg) ->
  exists v, append_content s x = Ok v /\
    ((exists ts ts', out = concat (map enc (ts ++ mkTlv f 2 v :: ts'))) \/
     v = [] /\ In s [S2_ma_cert; S2_sign_cert; S2_ca_cert; S2_link_cert]).
Proof.
  intros c out SH M s f x sg I E. rewrite marshal_driver_file in M.
  destruct (marshal_laid_out c marshal_order out (incl_refl _) SH M) as (us & -> & _ & _ & H & _).
  assert (IN : exists k, In (s, k) marshal_order /\ shape_of (s, k) = (f, 2, match k with SignedG2 => true | _ => false end) /\
     (is_certificate k = true -> In s [S2_ma_cert; S2_sign_cert; S2_ca_cert; S2_link_cert])).
  { repeat destruct I as [I|I]; try (injection I as <- <-; eexists; split; [repeat (try (left; reflexivity); right)|]; split;
      [reflexivity|cbn; intuition discriminate]). destruct I. }
  destruct IN as (k & J & SP & CI).
  destruct (H (s, k) x sg J E) as [[CK A]|(u & Iu & (y & sy & Ey & Ay & W))].
  - exists []. cbn [fst snd] in *. auto.
  - cbn [fst] in *. rewrite E in Ey. injection Ey as <- <-. exists (u_val u). split; auto. left.
    apply in_split in Iu as (a & b & ->). rewrite SP in W.
    exists (flat_map u_tlvs a), (match u_sig u with None => [] | Some (g, s) => [mkTlv (u_fid u) g s] end ++ flat_map u_tlvs b).
    assert (U1 : u_fid u = f) by (rewrite W; reflexivity). assert (U2 : u_app u = 2) by (rewrite W; reflexivity).
    rewrite dump_split, U1, U2. rewrite (map_app enc (flat_map u_tlvs a)), (concat_app (map enc (flat_map u_tlvs a))). reflexivity.
Qed.
Print Assumptions C18_second_generation_partial.

(** What is in the unwritten ones does not matter to the output. *)
Theorem C18_unwritten : forall c c', (forall s, ~ In s unwritten -> slot_of_card c s = slot_of_card c' s) ->
  marshal_file (Some (driver_file c)) = marshal_file (Some (driver_file c')).
Proof.
  intros c c' H. rewrite !marshal_driver_file.
  assert (T : forall p, In p marshal_order -> write_slot c p = write_slot c' p).
  { intros p I. unfold write_slot. rewrite H; auto.
    repeat destruct I as [<-|I]; try (cbn; intuition discriminate). }
  revert T. induction marshal_order as [|p l IH]; intros T; cbn [concat_res]; auto.
  rewrite (T p) by now left. rewrite IH by (intros q Q; apply T; now right). reflexivity.
Qed.
Print Assumptions C18_unwritten.

(** A card that has a second-generation activity and download file, written without. *)
Theorem C18_second_generation_refuted : exists us c out, Forall dumped_ok us /\ accepted no_charmap us c /\
  slot_of_card c S2_download <> None /\ slot_of_card c S2_activity <> None /\
  marshal_file (Some (driver_file c)) = Ok out /\ out = dump [icc_unit] /\ 
  exists c', accepted no_charmap [icc_unit] c' /\ forall s, s <> S_icc -> slot_of_card c' s = None.
Proof.
  set (u := mkDumped 0x050E 2 [0; 0; 0; 2] None).
  set (w := mkDumped 0x0504 2 (zeros 20) None).
  assert (D : driver_ok [icc_unit; u; w] = true) by (vm_compute; reflexivity).
  assert (Q : match unmarshal_file no_charmap (dump [icc_unit; u; w]) with Ok f => marshal_file (Some f) | _ => fail end = Ok (dump [icc_unit]))
    by (vm_compute; reflexivity).
  destruct (driver_ok_accepted _ D) as (V & c & A).
  pose proof A as R. apply accepted_iff in R as (os & _ & _ & G & E); auto.
  destruct (card_last no_charmap [icc_unit; u; w] os S2_download u [icc_unit] [w] G) as (x & _ & _ & X); [reflexivity|reflexivity| |].
  { apply Forall_cons; [discriminate|constructor]. }
  destruct (card_last no_charmap [icc_unit; u; w] os S2_activity w [icc_unit; u] [] G) as (y & _ & _ & Y); [reflexivity|reflexivity|constructor|].
  exists [icc_unit; u; w], c, (dump [icc_unit]). split; [exact V|]. split; [exact A|].
  split; [subst c; congruence|]. split; [subst c; congruence|].
  unfold accepted in A. rewrite A in Q. split; [exact Q|]. split; [reflexivity|].
  destruct (driver_ok_accepted [icc_unit]) as (V' & c' & A'); [vm_compute; reflexivity|].
  exists c'. split; [exact A'|]. pose proof A' as R. apply accepted_iff in R as (os' & _ & _ & G' & ->); auto.
  intros s N. apply (card_none no_charmap [icc_unit] os' s G'). apply Forall_cons; [|constructor].
  intros F. unfold u_field in F. cbv in F. injection F as <-. now apply N.
Qed.
Print Assumptions C18_second_generation_refuted.

(** A message with every field short: the one read from [shuffled_dump]. *)
Example C18_example : exists c out x sg, short_fields c /\ marshal_file (Some (driver_file c)) = Ok out /\
  In (S2_conditions, 0x0522) second_generation /\ slot_of_card c S2_conditions = Some (x, sg).
Proof.
  destruct (marshal_result shuffled_dump) as (V & c & out & A & M); [vm_compute; reflexivity|vm_compute; reflexivity|].
  destruct C17_example as (c' & x & _ & _ & A' & _ & _ & _ & _ & X). unfold accepted in A, A'. rewrite A in A'.
  injection A' as <-. exists c, out, x, (Some (repeat 9 64)).
  split; [|split; [exact M|split; [now repeat (try (left; reflexivity); right)|exact X]]].
  pose proof A as Q. apply accepted_iff in Q as (os & _ & _ & G & ->); auto.
  now apply (parsed_short no_charmap shuffled_dump os V G).
Qed.

(** * C20: whatever parses can be written *)

Lemma concat_no_panic {A} (f : A -> res bytes) l : (forall a, In a l -> f a <> Panic) -> concat_res f l <> Panic.
Proof.
  induction l as [|a l IH]; cbn [concat_res]; [discriminate|]. intros H E. apply bind_panic in E as [E|(b & _ & E)].
  - apply (H a); auto. now left.
  - apply bind_panic in E as [E|(r & _ & E)]; [|discriminate]. apply IH; auto. intros x I. apply H. now right.
Qed.

Lemma written_slot s : s <> S2_ma_cert -> ~ In s unwritten -> exists k, In (s, k) marshal_order.
Proof.
  intros N U. destruct s; try (exfalso; apply U; now repeat (try (left; reflexivity); right)); try (now destruct N);
    eexists; repeat (try (left; reflexivity); right).
Qed.

Lemma order_written p : In p marshal_order -> ~ In (fst p) unwritten.
Proof. intros I. repeat destruct I as [<-|I]; try (cbn; intuition discriminate). Qed.

(** Raw cards are always written; driver cards never make the writer crash, and are
    written exactly if the last unit of every field that is written has only known
    nations and, for GNSS places, odometer values below 1000000.  Missing: cards that
    fail that. *)
Theorem C20_marshal_partial : forall cm d, bytes_ok d ->
  (forall rs, unmarshal_file cm d = Ok (mkFile FILE_RAW_CARD None None (Some rs)) ->
     marshal_file (Some (mkFile FILE_RAW_CARD None None (Some rs))) = Ok d) /\
  (forall c, unmarshal_file cm d = Ok (driver_file c) -> marshal_file (Some (driver_file c)) <> Panic) /\
  (forall us c, d = dump us -> Forall dumped_ok us -> unmarshal_file cm d = Ok (driver_file c) ->
     ((exists out, marshal_file (Some (driver_file c)) = Ok out) <->
      forall a u b s, us = a ++ u :: b -> field_of (u_fid u) (u_gen2 u) = Some s -> ~ In s unwritten ->
        Forall (fun w => field_of (u_fid w) (u_gen2 w) <> Some s) b -> writable s (u_val u))).
Proof.
  intros cm d B. split; [|split].
  - intros rs U. exact (C02_raw_card_round_trip cm d _ B U eq_refl).
  - intros c U. apply accepted_bytes in U as (us & V & -> & A); auto.
    apply accepted_iff in A as (os & ST & I & G & ->); auto. rewrite marshal_driver_file.
    apply concat_no_panic. intros p J E. unfold write_slot in E.
    destruct (slot_of_card (card_of os) (fst p)) as [[x sg]|] eqn:Q; [|discriminate].
    apply bind_panic in E as [E|(b & _ & E)]; [|discriminate].
    destruct (card_some cm us os (fst p) (x, sg) G Q) as (a & u & b & D & F & N & RJ & X & SG). cbn [fst] in X.
    rewrite Forall_forall in V. destruct (V u) as (_ & _ & _ & Bu & _); [subst us; apply in_app_iff; right; now left|].
    pose proof (slot_codec cm (fst p) (u_val u) Bu) as C. rewrite X in C. destruct C as (_ & NP & _). contradiction.
  - intros us c -> V U. apply (accepted_iff cm us c V) in U as (os & ST & I & G & ->).
    rewrite marshal_driver_file.
    assert (T : (exists out, concat_res (write_slot (card_of os)) marshal_order = Ok out) <->
       is_ok (concat_res (write_slot (card_of os)) marshal_order) = true).
    { destruct (concat_res _ _); cbn [is_ok]; split; try discriminate; eauto; intros [? ?]; discriminate. }
    rewrite T, is_ok_concat, Forall_forall. split.
    + intros H a u b s E F N NB. assert (NM : s <> S2_ma_cert) by (intros ->; now apply field_not_ma in F).
      destruct (written_slot s NM N) as [k J]. specialize (H (s, k) J). apply write_slot_ok in H. cbn [fst] in H.
      destruct (card_last cm us os s u a b G E F NB) as (x & X & _ & Q). rewrite Q in H.
      destruct (parsed_field cm us os s x _ V G Q) as (a' & u' & b' & E' & F' & N' & _ & _ & X' & B' & A' & W' & _).
      destruct (same_last E E' F F' NB N') as [-> _]. rewrite W' in H. now apply V_writable in H.
    + intros H p J. apply write_slot_ok. destruct (slot_of_card (card_of os) (fst p)) as [[x sg]|] eqn:Q; auto.
      destruct (parsed_field cm us os (fst p) x sg V G Q) as (a & u & b & E & F & N & _ & _ & X & B' & A & W & _).
      rewrite W. apply V_writable; auto. apply (H a u b (fst p) E F); auto. now apply order_written.
Qed.
Print Assumptions C20_marshal_partial.

(** A usage file naming nation 200 is read but cannot be written. *)
Theorem C20_marshal_refuted : exists us c e, Forall dumped_ok us /\ accepted no_charmap us c /\
  marshal_file (Some (driver_file c)) = Err e.
Proof.
  set (us := [icc_unit; mkDumped 0x0507 0 ([0; 0; 0; 0; 200; 1] ++ repeat 32 13) None]).
  assert (Q : match unmarshal_file no_charmap (dump us) with Ok f => marshal_file (Some f) | _ => Ok [] end = Err EOther)
    by (vm_compute; reflexivity).
  destruct (driver_ok_accepted us) as (V & c & A); [vm_compute; reflexivity|].
  exists us, c, EOther. split; [exact V|]. split; [exact A|]. unfold accepted in A. now rewrite A in Q.
Qed.
Print Assumptions C20_marshal_refuted.

Example C20_example : Forall dumped_ok shuffled_dump /\ bytes_ok (dump shuffled_dump) /\
  (exists c, unmarshal_file no_charmap (dump shuffled_dump) = Ok (driver_file c)).
Proof.
  destruct (driver_ok_accepted shuffled_dump) as (V & c & A); [vm_compute; reflexivity|].
  split; [exact V|]. split; [now apply dump_bytes_ok|]. exists c. exact A.
Qed.

(** * C66: length fields *)

(** Every output for a card with contents of at most 65535 bytes is a sequence of
    records with correct length fields, in particular for every card that was read,
    whose output is also split again by the reader.  Missing: longer contents. *)
Theorem C66_lengths_partial :
  (forall c out, short_fields c -> marshal_file (Some (driver_file c)) = Ok out ->
     exists ts, Forall (fun t => Z.of_nat (length (t_val t)) <= 65535) ts /\ out = concat (map enc ts)) /\
  (forall cm us c out, Forall dumped_ok us -> accepted cm us c ->
     marshal_file (Some (driver_file c)) = Ok out ->
     short_fields c /\ exists ts, Forall (fun t => Z.of_nat (length (t_val t)) <= 65535) ts /\
       out = concat (map enc ts) /\ unmarshal_raw_card_file out = Ok (map expected ts)).
Proof.
  split.
  - intros c out SH M. rewrite marshal_driver_file in M.
    destruct (marshal_laid_out c marshal_order out (incl_refl _) SH M) as (us & -> & _ & H & _).
    exists (flat_map u_tlvs us). split; [|reflexivity]. rewrite Forall_forall. intros t I.
    apply in_flat_map in I as (u & J & K). destruct (H u J) as (p & Jp & (x & sg & E & A & W) & _).
    destruct p as [s k]. cbn [fst] in *. unfold u_tlvs in K. destruct K as [<-|K].
    + cbn [t_val]. eapply SH; eauto.
    + rewrite W in K. unfold written in K. destruct (shape_of (s, k)) as [[f a] g]. cbn [u_sig u_fid] in K.
      destruct g; [|destruct K]. destruct K as [<-|[]]. cbn [t_val]. rewrite zeros_length. lia.
  - intros cm us c out V A M. apply accepted_iff in A as (os & ST & I & G & ->); auto.
    split; [now apply (parsed_short cm us)|].
    destruct (reread cm us os out V ST G M) as (vs & -> & V' & _).
    exists (flat_map u_tlvs vs). pose proof (dump_tlvs vs V') as T. split; [|split; [reflexivity|]].
    + eapply Forall_impl; [|exact T]. intros t [(_ & _ & _ & L) _]. exact L.
    + pose proof (raw_card_ok (flat_map u_tlvs vs) [] T) as R. rewrite app_nil_r in R. rewrite dump_encs.
      rewrite R; [reflexivity|]. left. cbn. lia.
Qed.
Print Assumptions C66_lengths_partial.

(** A card with only this certificate. *)
Definition certificate_card (raw : bytes) : driver_card :=
  set_slot empty_card S_card_cert (mkRsa [] [] None [] [] raw None, None).

Lemma certificate_card_written raw : raw <> [] -> marshal_file (Some (driver_file (certificate_card raw))) =
  Ok (tlv_bytes EF_CARD_CERTIFICATE 0 raw).
Proof.
  intros N. rewrite marshal_driver_file.
  assert (W : forall p, In p marshal_order -> fst p <> S_card_cert -> write_slot (certificate_card raw) p = Ok []).
  { intros p I E. repeat destruct I as [<-|I]; try reflexivity. now destruct E. destruct I. }
  unfold marshal_order. cbn [concat_res]. 
  repeat (rewrite W by (first [now repeat (try (left; reflexivity); right)|discriminate])).
  cbn [bind]. unfold write_slot. cbn. destruct raw; [now destruct N|]. cbn. rewrite app_nil_r. reflexivity.
Qed.

(** A certificate of 65536 bytes is announced as having none. *)
Theorem C66_lengths_refuted : exists c raw out, bytes_ok raw /\ Z.of_nat (length raw) = 65536 /\
  marshal_file (Some (driver_file c)) = Ok out /\ out = [0xC1; 0x00; 0; 0; 0] ++ raw.
Proof.
  exists (certificate_card (zeros (Z.to_nat 65536))), (zeros (Z.to_nat 65536)). eexists.
  split; [apply zeros_bytes_ok|]. split; [rewrite zeros_length; lia|]. split.
  - apply certificate_card_written. intros E. apply (f_equal (@length Z)) in E. rewrite zeros_length in E. cbn [length] in E. lia.
  - unfold tlv_bytes. rewrite zeros_length, Z2Nat.id by lia. reflexivity.
Qed.
Print Assumptions C66_lengths_refuted.

Example C66_example : exists c out, short_fields c /\ marshal_file (Some (driver_file c)) = Ok out /\ (length out > 100)%nat.
Proof.
  assert (L : match unmarshal_file no_charmap (dump shuffled_dump) with
    | Ok f => match marshal_file (Some f) with Ok o => (100 <? length o)%nat | _ => false end | _ => false end = true)
    by (vm_compute; reflexivity).
  destruct (marshal_result shuffled_dump) as (V & c & out & A & M); [vm_compute; reflexivity|vm_compute; reflexivity|].
  pose proof A as U. unfold accepted in U. rewrite U in L. unfold driver_file in M. rewrite M in L. apply Nat.ltb_lt in L.
  exists c, out. split; [|split; [exact M|lia]].
  exact (proj1 (proj2 C66_lengths_partial no_charmap shuffled_dump c out V A M)).
Qed.
