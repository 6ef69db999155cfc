(** C142: for whom and for what the certificates of a card that passed were made. *)

From Verif Require Import Base Enums DDScalar P_Scalar Asn1 Cert P_Cert Props_Cert Verify DriverCard Api P_Dump P_Driver
  Props_RawCard Props_Dump Props_Driver Props_Verify Props_VerifyAgain.

(** The authorisation of a first-generation driver card, and of the key with which a
    second-generation driver card signs (docs/regulation/chapters/03-data-dictionary.md,
    2.43 and 2.67; 16-common-security-mechanisms.md:1772 demands the latter). *)
Definition role1 : bytes := [0xFF; 0x54; 0x41; 0x43; 0x48; 0x4F; 1].
Definition role2 : bytes := [0xFF; 0x53; 0x4D; 0x52; 0x44; 0x54; 17].

(** After a success the message has the holder that was signed: its reference for the
    first generation, its reference and its authorisation for the second.  So a
    caller can compare them with the chip and the kind of the card; the library does
    not (below). *)
Theorem C142_holder_partial : forall k r cm us c c', hash_bytes k -> answers_bytes r ->
  Forall dumped_ok us -> accepted cm us c -> verify_file k r (Some (driver_file c)) = (Ok tt, Some (driver_file c')) ->
  (dc_has c Gen1 = true -> exists x x' name n e content,
     card_certificate c = Some x /\ card_certificate c' = Some x' /\ rsa_raw x' = rsa_raw x /\
     authority k r (rsa_car x) name n e /\ issued k (rsa_raw x) name n e content /\
     rsa_chr x' = dec (be (sub content 20 8))) /\
  (dc_has c Gen2 = true -> exists x a key bits cv body cpi car cha pk chr rest p q,
     card_sign_certificate c' = Some x /\ get_ecc r (ecc_car x) = Ok (Some a) /\
     ecc_pk a = Some key /\ parse_curve_oid (key_oid key) = Ok (bits, cv) /\ ecc_sig x = Some (p, q) /\
     ecdsa k cv (be (key_x key)) (be (key_y key)) (sha2 k bits (rv_full body)) (be p) (be q) = Some true /\
     Forall element [cpi; car; cha; pk; chr] /\
     rv_bytes body = rv_full cpi ++ rv_full car ++ rv_full cha ++ rv_full pk ++ rv_full chr ++ rest /\
     ecc_cha x = rv_bytes cha /\ ecc_chr x = dec (be (rv_bytes chr))).
Proof.
  intros k r cm us c c' HK R V A E.
  unfold verify_file, driver_file in E. cbn [file_type file_driver_card file_vu file_raw_card] in E.
  change (FILE_DRIVER_CARD =? FILE_DRIVER_CARD) with true in E. cbn iota in E.
  destruct (verify_driver_card k (Some r) c) as [o d] eqn:VD. injection E as -> ->.
  unfold verify_driver_card in VD.
  destruct (if dc_has c Gen1 then verify_gen1 k (Some r) c else (Ok tt, c)) as [o1 c1] eqn:E1.
  destruct o1 as [[]|?|]; try discriminate VD.
  assert (G2 : dc_has c1 Gen2 = dc_has c Gen2 /\ card_sign_certificate c1 = card_sign_certificate c).
  { destruct (dc_has c Gen1).
    - pose proof (verify_gen1_frame k (Some r) c) as (F0 & _). pose proof (sign_after k (Some r) c) as (_ & G). rewrite E1 in F0, G. auto.
    - injection E1 as <-. auto. }
  assert (K1 : card_certificate c' = card_certificate c1).
  { rewrite (proj1 G2) in VD. destruct (dc_has c Gen2); [|now injection VD as <-].
    unfold verify_gen2 in VD. destruct (card_sign_certificate c1) as [x|]; [|discriminate VD].
    destruct (obtain_ecc_ca (Some r) c1 x) as [ca|?|]; try discriminate VD.
    destruct (verify_ecc k x ca) as [? x']. injection VD as _ <-. unfold card_certificate, store_ecc.
    rewrite slot_set_other by discriminate. reflexivity. }
  split; intros P.
  - rewrite P in E1. unfold verify_gen1 in E1. destruct (card_certificate c) as [x|] eqn:X; [|discriminate E1].
    destruct (obtain_rsa_ca k (Some r) c x) as [ca|?|] eqn:O; try discriminate E1. cbn [verify_rsa_with_ca] in E1.
    destruct (obtain_ok k r c x ca HK R O) as (AU & BN).
    destruct (verify_rsa k x (rsa_n ca) (rsa_e ca) (rsa_chr ca)) as [o x'] eqn:VR. injection E1 as -> <-.
    destruct (rsa_from_dump cm us c x V A X) as (? & u & ? & _ & _ & _ & _ & Q & _ & _ & B). rewrite <- Q in B.
    apply verify_rsa_ok in VR as (content & IS & ->); auto.
    exists x, (rsa_filled x content), (rsa_chr ca), (rsa_n ca), (rsa_e ca), content.
    split; [reflexivity|]. split; [|auto].
    rewrite K1. unfold card_certificate, store_rsa. rewrite slot_set_same. reflexivity.
  - destruct G2 as [G2 G3]. rewrite G2, P in VD. unfold verify_gen2 in VD. rewrite G3 in VD.
    destruct (card_sign_certificate c) as [x|] eqn:X; [|discriminate VD]. cbn [obtain_ecc_ca] in VD.
    destruct (get_ecc r (ecc_car x)) as [ca|?|] eqn:GE; try discriminate VD.
    destruct (verify_ecc k x ca) as [o x'] eqn:VE. injection VD as -> <-.
    destruct ca as [ca|]; [|discriminate VE].
    destruct (ecc_from_dump cm us c x V A X) as (? & u & ? & _ & _ & _ & _ & Q & B).
    destruct (ecc_length _ _ Q) as (L & RX). assert (BX : bytes_ok (ecc_raw x)) by now rewrite RX.
    destruct (verify_ecc_cases k x ca BX) as [(_ & SGN & M)|[(_ & _ & [W|W])|(_ & e & W)]]; rewrite VE in *; try discriminate W; try discriminate.
    injection M as ->.
    destruct SGN as (key & bits & cv & outer & body & t0 & t1 & p & q & S1 & _ & _ & S4 & S5 & S6 & S7 & S8 & S9 & S10).
    destruct (C62_certificates_parsed (u_val u) B) as (_ & _ & LY & _). apply LY in Q as (_ & Q).
    destruct Q as (outer' & body' & cpi & car & cha & pk & oid & point & chr & from & to & sg & ob & px & py & rr & ss & u0 & u1 & u2 & u3 &
      EL & D1 & D2 & D3 & D4 & _ & _ & _ & _ & LF & LT & _ & _ & _ & _ & _ & _ & EX).
    assert (EO : asn1_raw (u_val u) = Ok (outer, t0)) by (apply raw_iff; auto; split; [auto|now rewrite <- RX]).
    rewrite !Forall_cons_iff in EL. destruct EL as (EL1 & EL2 & EL3 & EL4 & EL5 & EL6 & _ & _ & EL9 & EL10 & EL11 & _).
    assert (EO' : asn1_raw (u_val u) = Ok (outer', u0)) by (apply raw_iff; auto).
    rewrite EO in EO'. injection EO' as <- <-.
    assert (BO : bytes_ok (rv_bytes outer)).
    { apply (element_ok outer); auto. rewrite D1 in B. now apply bytes_ok_app in B as [B _]. }
    assert (EB : asn1_raw (rv_bytes outer) = Ok (body, t1)) by (apply raw_iff; auto).
    assert (EB' : asn1_raw (rv_bytes outer) = Ok (body', rv_full sg ++ u1)) by (apply raw_iff; auto).
    rewrite EB in EB'. injection EB' as <- _.
    exists (ecc_mark x true), ca, key, bits, cv, body, cpi, car, cha, pk, chr, (rv_full from ++ rv_full to ++ u2), p, q.
    split. { unfold card_sign_certificate, store_ecc. rewrite slot_set_same. reflexivity. }
    split; [exact GE|]. split; [exact S1|]. split; [exact S4|]. split; [exact S9|]. split; [exact S10|].
    split. { repeat (apply Forall_cons; [assumption|]). constructor. }
    split; [exact D3|]. rewrite EX. split; reflexivity.
Qed.
Print Assumptions C142_holder_partial.

(** ** The certificates of another card *)

Lemma gives_in cm us os u : Forall2 (gives cm) us os -> In u us -> exists o, gives cm u o.
Proof. induction 1 as [|v o us os G _ IH]; intros []; subst; eauto. Qed.

(** Behind every download of every card the certificates of one card that passes can
    be put; the result is accepted, has all other files of the former, and passes. *)
Theorem C142_transplanted : forall k r cm us c vs d, Forall dumped_ok us -> Forall dumped_ok vs ->
  accepted cm us c -> accepted cm vs d ->
  fst (verify_file k r (Some (driver_file d))) = Ok tt -> dc_has d Gen1 = true -> dc_has d Gen2 = true ->
  exists u1 u2 c', In u1 vs /\ In u2 vs /\ accepted cm (us ++ [u1; u2]) c' /\
    (forall s, s <> S_card_cert -> s <> S2_sign_cert -> slot_of_card c' s = slot_of_card c s) /\
    fst (verify_file k r (Some (driver_file c'))) = Ok tt.
Proof.
  intros k r cm us c vs d V W A B O P1 P2.
  apply accepted_iff in A as (os & (h & q & Hq & Hh) & I & G & ->); auto.
  apply accepted_iff in B as (ps & _ & J & K & ->); auto.
  assert (O' := O). rewrite verify_driver_file, verify_driver_fst, P1, P2 in O'. apply bind_ok in O' as ([] & O1 & O2).
  destruct (verify_gen1_present _ _ _ O1) as [x X]. destruct (verify_gen2_present _ _ _ O2) as [y Y].
  assert (X' := X). assert (Y' := Y). unfold card_certificate in X'. unfold card_sign_certificate in Y'.
  destruct (slot_of_card (card_of ps) S_card_cert) as [e1|] eqn:E1; [|discriminate X'].
  destruct (slot_of_card (card_of ps) S2_sign_cert) as [e2|] eqn:E2; [|discriminate Y'].
  destruct (card_some cm vs ps _ _ K E1) as (a1 & u1 & b1 & D1 & U1 & _ & _ & M1 & _).
  destruct (card_some cm vs ps _ _ K E2) as (a2 & u2 & b2 & D2 & U2 & _ & _ & M2 & _).
  assert (I1 : In u1 vs) by (rewrite D1; apply in_or_app; right; now left).
  assert (I2 : In u2 vs) by (rewrite D2; apply in_or_app; right; now left).
  destruct (gives_in cm vs ps u1 K I1) as [o1 G1]. destruct (gives_in cm vs ps u2 K I2) as [o2 G2].
  assert (GG : Forall2 (gives cm) (us ++ [u1; u2]) (os ++ [o1; o2])) by (apply Forall2_app; auto).
  exists u1, u2, (card_of (os ++ [o1; o2])). split; [exact I1|]. split; [exact I2|]. split; [|split].
  - apply accepted_iff.
    { rewrite Forall_forall in V, W |- *. intros u L. apply in_app_or in L as [L|[<-|[<-|[]]]]; auto. }
    exists (os ++ [o1; o2]). split; [exists h, (q ++ [u1; u2]); now rewrite Hq|]. split; [|auto].
    rewrite Forall_forall in I, J |- *. intros u L. apply in_app_or in L as [L|[<-|[<-|[]]]]; auto.
  - intros s N1 N2. rewrite !card_of_slot, latest_app. apply (latest_none cm s [u1; u2]); [auto|].
    repeat constructor; congruence.
  - rewrite <- O. apply same_verdict.
    + rewrite P1. apply (card_has cm _ _ Gen1 GG). right. exists u1, S_card_cert. split; [apply in_or_app; right; now left|auto].
    + rewrite P2. apply (card_has cm _ _ Gen2 GG). right. exists u2, S2_sign_cert. split; [apply in_or_app; right; right; now left|auto].
    + destruct (card_last cm _ _ S_card_cert u1 us [u2] GG eq_refl U1) as (x' & L1 & _ & L2); [constructor; [congruence|constructor]|].
      unfold card_certificate. rewrite L2, E1. rewrite M1 in L1. apply Ok_inj in L1. subst x'. reflexivity.
    + destruct (card_last cm (us ++ [u1; u2]) (os ++ [o1; o2]) S2_sign_cert u2 (us ++ [u1]) [] GG) as (y' & L1 & _ & L2);
        [now rewrite <- app_assoc|exact U2|constructor|].
      unfold card_sign_certificate. rewrite L2, E2. rewrite M2 in L1. apply Ok_inj in L1. subst y'. reflexivity.
Qed.
Print Assumptions C142_transplanted.

(** ** A card with the certificates of authorities *)

(** The card of Props_Verify passes with certificates that were made for a Member State
    (equipment types 0 and 14), whose holder references are 9 and 42, while the serial
    number of its chip is 0. *)
Theorem C142_purpose_refuted : exists k r us c x content y chip, verified k r us c /\
  card_certificate c = Some x /\ (exists name n e, issued k (rsa_raw x) name n e content) /\
  card_sign_certificate c = Some y /\
  sub content 9 7 <> role1 /\ ecc_cha y <> role2 /\
  In (mkDumped 0x0002 0 chip None) us /\ sub content 20 8 <> sub chip 1 8 /\ ecc_chr y <> dec (be (sub chip 1 8)).
Proof.
  assert (H : exists c, verified toy (toy_resolver toy_root) (toy_dump [0; 0; 0; 1] [0; 0; 0; 1] 1) c /\
    (match card_certificate c with Some x => same_bytes (rsa_raw x) (gen1_certificate 7 9 [0; 0; 0; 1]) | None => false end &&
     match card_sign_certificate c with
     | Some y => negb (same_bytes (ecc_cha y) role2) && same_bytes (ecc_chr y) (dec 42)
     | None => false end) = true).
  { apply verified_b_ok. vm_compute. reflexivity. }
  destruct H as (c & W & H). apply andb_true_iff in H as [H1 H2].
  exists toy, (toy_resolver toy_root), (toy_dump [0; 0; 0; 1] [0; 0; 0; 1] 1), c.
  destruct (card_certificate c) as [x|]; [|discriminate H1]. apply same_bytes_ok in H1.
  destruct (card_sign_certificate c) as [y|]; [|discriminate H2]. apply andb_true_iff in H2 as [H2 H3]. apply same_bytes_ok in H3.
  exists x, (toy_content 9 [0; 0; 0; 1]), y, (zeros 25). split; [exact W|]. split; [reflexivity|].
  split; [exists (dec 7), toy_key, (to_be 8 1); rewrite H1; exact toy_issued|]. split; [reflexivity|].
  split; [vm_compute; intros Q; discriminate Q|].
  split. { intros Q. rewrite Q in H2. vm_compute in H2. discriminate H2. }
  split; [now left|]. split; [vm_compute; intros Q; discriminate Q|]. rewrite H3. vm_compute. intros Q; discriminate Q.
Qed.
Print Assumptions C142_purpose_refuted.

(** The hypotheses of both theorems hold of that card. *)
Example C142_example : hash_bytes toy /\ answers_bytes (toy_resolver toy_root) /\ exists us c c', Forall dumped_ok us /\ accepted no_charmap us c /\
  verify_file toy (toy_resolver toy_root) (Some (driver_file c)) = (Ok tt, Some (driver_file c')) /\
  dc_has c Gen1 = true /\ dc_has c Gen2 = true.
Proof.
  split; [exact hash_toy|]. split; [apply default_bytes, toy_sources, toy_root_ok|].
  destruct toy_verified as (c & (V & A & O) & D). exists (toy_dump [0; 0; 0; 1] [0; 0; 0; 1] 1), c.
  destruct (verify_file toy (toy_resolver toy_root) (Some (driver_file c))) as [o f] eqn:E. cbn [fst] in O. subst o.
  assert (W := E). unfold verify_file, driver_file in W. cbn [file_type file_driver_card file_vu file_raw_card] in W.
  change (FILE_DRIVER_CARD =? FILE_DRIVER_CARD) with true in W. cbn iota in W.
  destruct (verify_driver_card toy (Some (toy_resolver toy_root)) c) as [o c'] eqn:VD. injection W as _ <-.
  exists c'. split; [exact V|]. split; [exact A|]. split; [reflexivity|]. now apply andb_true_iff in D.
Qed.
