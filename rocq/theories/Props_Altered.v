(** C56, C60: what the verification of a card does protect.  The full claims are
    false (Props_Verify); here is which changes of a certificate are detected, and
    that the dates reported after a success are those that were signed. *)

From Verif Require Import Base Enums DDScalar P_Scalar Asn1 Cert P_Cert Props_Cert Verify DriverCard Api P_Dump P_Driver
  Props_RawCard Props_Dump Props_Driver Props_Verify.

Lemma authority_unique k r car n1 m1 e1 n2 m2 e2 : hash_bytes k -> authority k r car n1 m1 e1 -> authority k r car n2 m2 e2 ->
  n1 = n2 /\ m1 = m2 /\ e1 = e2.
Proof.
  intros HK (a & A & H) (b & B & G). rewrite A in B. injection B as <-.
  destruct H as [(H1 & H2 & -> & -> & ->)|(H & root & ct & R & I & -> & -> & ->)];
    destruct G as [(G1 & G2 & -> & -> & ->)|(G & root' & ct' & R' & I' & -> & -> & ->)]; auto;
    try (exfalso; tauto).
  rewrite R in R'. injection R' as <-.
  replace ct' with ct; auto. eapply rsa_signed_unique; eauto; [apply I|apply I'].
Qed.

(** The same signature under the same key is one of the same first part and the
    same hash. *)
Lemma same_signature k raw raw' n e c1 c2 : hash_bytes k -> sub raw 0 128 = sub raw' 0 128 ->
  rsa_signed k raw n e c1 -> rsa_signed k raw' n e c2 -> firstn 106 c1 = firstn 106 c2 /\ sha1 k c1 = sha1 k c2.
Proof.
  intros HK SR (a & A1 & A2 & A3 & A4 & A5) (b & B1 & B2 & B3 & B4 & B5).
  assert (E : be (106 :: a ++ sha1 k c1 ++ [188]) = be (106 :: b ++ sha1 k c2 ++ [188])).
  { apply mod_exp_recovers in A5, B5. rewrite SR in A5. congruence. }
  assert (OK : forall x h, bytes_ok x -> bytes_ok h -> bytes_ok (106 :: x ++ h ++ [188])).
  { intros x h X H. apply bytes_ok_cons. split; [unfold byte_ok; lia|]. rewrite !bytes_ok_app. repeat split; auto.
    constructor; [unfold byte_ok; lia|constructor]. }
  assert (L : forall x h, length x = 106%nat -> length h = 20%nat -> length (106 :: x ++ h ++ [188]) = 128%nat).
  { intros x h X H. cbn [length]. rewrite !app_length, X, H. reflexivity. }
  pose proof (to_be_be 128 _ (OK a (sha1 k c1) A1 (HK c1)) (L _ _ A2 A4)) as Ta.
  pose proof (to_be_be 128 _ (OK b (sha1 k c2) B1 (HK c2)) (L _ _ B2 B4)) as Tb.
  rewrite <- E, Ta in Tb. assert (Q : a ++ sha1 k c1 ++ [188] = b ++ sha1 k c2 ++ [188]) by congruence.
  apply P_Vu.app_inj_length in Q as [Q1 Q2]; [|congruence].
  apply P_Vu.app_inj_length in Q2 as [Q2 _]; [|congruence]. split; [|exact Q2].
  rewrite A3, B3, !firstn_app, A2, B2, Nat.sub_diag, !firstn_O, !app_nil_r. now rewrite Q1.
Qed.

Lemma same_content k raw raw' n e c : length raw = 194%nat -> length raw' = 194%nat ->
  sub raw 0 128 = sub raw' 0 128 -> sub raw 186 8 = sub raw' 186 8 ->
  rsa_signed k raw n e c -> rsa_signed k raw' n e c -> raw = raw'.
Proof.
  intros L L' S1 S3 (a & _ & A2 & A3 & _) (b & _ & B2 & B3 & _). rewrite A3 in B3.
  apply P_Vu.app_inj_length in B3 as [_ S2]; [|congruence].
  assert (W : forall d : bytes, length d = 194%nat -> d = sub d 0 128 ++ sub d 128 58 ++ sub d 186 8).
  { intros d Ld. rewrite (sub_join d 128 58 8 186), (sub_join d 0 128 (58 + 8) 128) by lia. symmetry. apply sub_whole; lia. }
  rewrite (W raw L), (W raw' L'), S1, S2, S3. reflexivity.
Qed.

(** The parts of a second-generation certificate that are signed. *)
Definition certified (x : ecc_cert) := (ecc_cpi x, ecc_car x, ecc_cha x, ecc_pk x, ecc_chr x, ecc_from x, ecc_to x).

Lemma element_inj v w : bytes_ok (rv_full v) -> element v -> element w -> rv_full v = rv_full w -> v = w.
Proof.
  intros B V W E. assert (H : asn1_raw (rv_full v) = Ok (v, [])) by (apply raw_iff; rewrite ?app_nil_r; auto).
  rewrite E in *. assert (G : asn1_raw (rv_full w) = Ok (w, [])) by (apply raw_iff; rewrite ?app_nil_r; auto).
  congruence.
Qed.

(** What is signed of an accepted certificate determines its certified parts. *)
Lemma same_body d d' x x' outer body t0 t1 outer' body' t0' t1' : bytes_ok d -> bytes_ok d' ->
  unmarshal_ecc d = Ok x -> unmarshal_ecc d' = Ok x' ->
  element outer -> element body -> d = rv_full outer ++ t0 -> rv_bytes outer = rv_full body ++ t1 ->
  element outer' -> element body' -> d' = rv_full outer' ++ t0' -> rv_bytes outer' = rv_full body' ++ t1' ->
  rv_full body = rv_full body' -> certified x = certified x'.
Proof.
  intros B B' U U' V1 V2 D1 D2 W1 W2 E1 E2 F0.
  assert (BO : bytes_ok (rv_bytes outer)).
  { apply (element_ok outer); auto. rewrite D1 in B. now apply bytes_ok_app in B as [B _]. }
  assert (BO' : bytes_ok (rv_bytes outer')).
  { apply (element_ok outer'); auto. rewrite E1 in B'. now apply bytes_ok_app in B' as [B' _]. }
  assert (BB : bytes_ok (rv_full body)) by (rewrite D2 in BO; now apply bytes_ok_app in BO as [BO _]).
  pose proof (element_inj body body' BB V2 W2 F0) as <-.
  assert (P1 : asn1_raw d = Ok (outer, t0)) by (apply raw_iff; auto).
  assert (P2 : asn1_raw (rv_bytes outer) = Ok (body, t1)) by (apply raw_iff; auto).
  assert (P1' : asn1_raw d' = Ok (outer', t0')) by (apply raw_iff; auto).
  assert (P2' : asn1_raw (rv_bytes outer') = Ok (body, t1')) by (apply raw_iff; auto).
  unfold unmarshal_ecc in U, U'. rewrite P1 in U. rewrite P1' in U'.
  apply bind_ok in U as ([] & _ & U). apply bind_ok in U' as ([] & _ & U'). cbn [bind] in U, U'.
  rewrite P2 in U. rewrite P2' in U'. cbn [bind] in U, U'.
  repeat match goal with
  | H : (let* (_, _) := ?a in _) = Ok ?x, H' : (let* (_, _) := ?a in _) = Ok ?x' |- _ =>
      let E := fresh "E" in destruct a as [[? ?]|?|] eqn:E; try discriminate H; cbn [bind] in H, H'; clear E
  | H : bind ?a _ = Ok ?x, H' : bind ?a _ = Ok ?x' |- _ =>
      let E := fresh "E" in destruct a as [?|?|] eqn:E; try discriminate H; cbn [bind] in H, H'; clear E
  end.
  apply bind_ok in U as ([? ?] & _ & U). apply bind_ok in U as ([] & _ & U). apply Ok_inj in U.
  apply bind_ok in U' as ([? ?] & _ & U'). apply bind_ok in U' as ([] & _ & U'). apply Ok_inj in U'.
  subst x x'. reflexivity.
Qed.

(** A card certificate of which anything but the signature and the named authority
    was altered passes only with a collision of the hash function; an altered
    second-generation certificate, with the same signature, only with a collision or
    a signature that is good for two hashes.  The certificates of the card are all
    that is protected: C56_altered_data_refuted. *)
Theorem C56_altered_data_partial : forall k r cm us us' c c', hash_bytes k -> answers_bytes r ->
  Forall dumped_ok us -> accepted cm us c -> fst (verify_file k r (Some (driver_file c))) = Ok tt ->
  Forall dumped_ok us' -> accepted cm us' c' -> fst (verify_file k r (Some (driver_file c'))) = Ok tt ->
  (forall x x', card_certificate c = Some x -> card_certificate c' = Some x' ->
     sub (rsa_raw x) 0 128 = sub (rsa_raw x') 0 128 -> sub (rsa_raw x) 186 8 = sub (rsa_raw x') 186 8 ->
     rsa_raw x <> rsa_raw x' ->
     exists m m', m <> m' /\ sha1 k m = sha1 k m') /\
  (forall x x', card_sign_certificate c = Some x -> card_sign_certificate c' = Some x' ->
     ecc_sig x = ecc_sig x' -> ecc_car x = ecc_car x' -> certified x <> certified x' ->
     (exists bits m m', m <> m' /\ sha2 k bits m = sha2 k bits m') \/
     (exists cv px py h h' a b, h <> h' /\ ecdsa k cv px py h a b = Some true /\ ecdsa k cv px py h' a b = Some true)).
Proof.
  intros k r cm us us' c c' HK R V A O V' A' O'.
  destruct (C54_authentic k r cm us c HK R V A) as [[H _] _]. destruct (H O) as [H1 H2]. clear H.
  destruct (C54_authentic k r cm us' c' HK R V' A') as [[H _] _]. destruct (H O') as [H1' H2']. clear H. split.
  - intros x x' X X' S1 S3 N.
    assert (P : dc_has c Gen1 = true).
    { unfold card_certificate in X. destruct (slot_of_card c S_card_cert) as [e|] eqn:E; [|discriminate X]. exact (slot_present E). }
    assert (P' : dc_has c' Gen1 = true).
    { unfold card_certificate in X'. destruct (slot_of_card c' S_card_cert) as [e|] eqn:E; [|discriminate X']. exact (slot_present E). }
    destruct (H1 P) as (y & Y & n & m & e & ct & AU & IS). rewrite X in Y. injection Y as <-.
    destruct (H1' P') as (y & Y & n' & m' & e' & ct' & AU' & IS'). rewrite X' in Y. injection Y as <-.
    assert (CAR : rsa_car x = rsa_car x').
    { destruct (rsa_from_dump cm us c x V A X) as (? & ? & ? & _ & _ & _ & _ & Q & T & _).
      destruct (rsa_from_dump cm us' c' x' V' A' X') as (? & ? & ? & _ & _ & _ & _ & Q' & T' & _).
      rewrite Q, Q' in S3. now rewrite T, T', S3. }
    rewrite CAR in AU. destruct (authority_unique k r _ _ _ _ _ _ _ HK AU AU') as (<- & <- & <-).
    destruct IS as (L & _ & _ & _ & G). destruct IS' as (L' & _ & _ & _ & G').
    destruct (same_signature k _ _ _ _ _ _ HK S1 G G') as (_ & E). exists ct, ct'. split; [|exact E].
    intros <-. apply N. eapply same_content; eauto.
  - intros x x' X X' SG CAR N.
    assert (P : dc_has c Gen2 = true).
    { unfold card_sign_certificate in X. destruct (slot_of_card c S2_sign_cert) as [e|] eqn:E; [|discriminate X]. exact (slot_present E). }
    assert (P' : dc_has c' Gen2 = true).
    { unfold card_sign_certificate in X'. destruct (slot_of_card c' S2_sign_cert) as [e|] eqn:E; [|discriminate X']. exact (slot_present E). }
    destruct (H2 P) as (y & Y & ca & GA & key & bits & cv & outer & body & t0 & t1 & a & b & K1 & _ & _ & K2 & V1 & V2 & D1 & D2 & SS & EC).
    rewrite X in Y. injection Y as <-.
    destruct (H2' P') as (y & Y & ca' & GA' & key' & bits' & cv' & outer' & body' & t0' & t1' & a' & b' & K1' & _ & _ & K2' & W1 & W2 & E1 & E2 & SS' & EC').
    rewrite X' in Y. injection Y as <-.
    rewrite CAR, GA' in GA. injection GA as <-. rewrite K1 in K1'. injection K1' as <-. rewrite K2 in K2'. injection K2' as <- <-.
    rewrite SG, SS' in SS. injection SS as <- <-.
    destruct (ecc_from_dump cm us c x V A X) as (? & u & ? & _ & _ & _ & _ & Q & B).
    destruct (ecc_from_dump cm us' c' x' V' A' X') as (? & u' & ? & _ & _ & _ & _ & Q' & B').
    destruct (ecc_length _ _ Q) as (_ & F1). destruct (ecc_length _ _ Q') as (_ & F2).
    assert (NB : rv_full body <> rv_full body').
    { intros E. apply N. rewrite F1 in D1. rewrite F2 in E1.
      exact (same_body (u_val u) (u_val u') x x' outer body t0 t1 outer' body' t0' t1' B B' Q Q' V1 V2 D1 D2 W1 W2 E1 E2 E). }
    destruct (list_eq_dec Z.eq_dec (sha2 k bits (rv_full body)) (sha2 k bits (rv_full body'))) as [E|E].
    + left. eauto 6.
    + right. exists cv, (be (key_x key)), (be (key_y key)). eauto 10.
Qed.
Print Assumptions C56_altered_data_partial.

(** With the toy primitives, whose hash ignores all but the first 20 bytes, there are
    such pairs of cards. *)
Definition altered_unit : dumped :=
  mkDumped 0xC100 0 (firstn 150 (gen1_certificate 7 9 [0; 0; 0; 1]) ++ [3] ++ skipn 151 (gen1_certificate 7 9 [0; 0; 0; 1])) None.
Definition altered_dump : list dumped :=
  [icc_unit; ic_unit; licence_unit 1; altered_unit; gen2_unit [0; 0; 0; 2]].

Definition shows (raw : bytes) (t : Z) (c : driver_card) : bool :=
  match card_certificate c, card_sign_certificate c with
  | Some x, Some y =>
      same_bytes (rsa_raw x) raw &&
      match ecc_sig y, ecc_to y with
      | Some (a, b), Some (mkTs u _) => same_bytes a (repeat 5 32) && same_bytes b (repeat 5 32) && same_bytes (ecc_car y) gen2_car && (u =? t)
      | _, _ => false
      end
  | _, _ => false
  end.

Lemma shows_ok raw t c : shows raw t c = true -> exists x y z, card_certificate c = Some x /\ card_sign_certificate c = Some y /\
  rsa_raw x = raw /\ ecc_sig y = Some (repeat 5 32, repeat 5 32) /\ ecc_car y = gen2_car /\ ecc_to y = Some (mkTs t z).
Proof.
  unfold shows. destruct (card_certificate c) as [x|]; [|discriminate]. destruct (card_sign_certificate c) as [y|]; [|discriminate].
  intros H. apply andb_true_iff in H as [H D]. apply same_bytes_ok in H.
  destruct (ecc_sig y) as [[a b]|] eqn:SG; [|discriminate D]. destruct (ecc_to y) as [[u z]|] eqn:T; [|discriminate D].
  apply andb_true_iff in D as [D D4]. apply andb_true_iff in D as [D D3]. apply andb_true_iff in D as [D1 D2].
  apply same_bytes_ok in D1, D2, D3. apply Z.eqb_eq in D4. subst a b u. exists x, y, z.
  split; [reflexivity|]. split; [reflexivity|]. split; [exact H|]. split; [exact SG|]. split; [exact D3|]. exact T.
Qed.

Example C56_example : exists c c' x x' y y',
  verified toy (toy_resolver toy_root) (toy_dump [0; 0; 0; 1] [0; 0; 0; 1] 1) c /\
  verified toy (toy_resolver toy_root) altered_dump c' /\
  card_certificate c = Some x /\ card_certificate c' = Some x' /\
  sub (rsa_raw x) 0 128 = sub (rsa_raw x') 0 128 /\ sub (rsa_raw x) 186 8 = sub (rsa_raw x') 186 8 /\ rsa_raw x <> rsa_raw x' /\
  card_sign_certificate c = Some y /\ card_sign_certificate c' = Some y' /\
  ecc_sig y = ecc_sig y' /\ ecc_car y = ecc_car y' /\ certified y <> certified y'.
Proof.
  assert (H : exists c, verified toy (toy_resolver toy_root) (toy_dump [0; 0; 0; 1] [0; 0; 0; 1] 1) c /\
    shows (gen1_certificate 7 9 [0; 0; 0; 1]) 1 c = true) by (apply verified_b_ok; vm_compute; reflexivity).
  assert (H' : exists c, verified toy (toy_resolver toy_root) altered_dump c /\ shows (u_val altered_unit) 2 c = true)
    by (apply verified_b_ok; vm_compute; reflexivity).
  destruct H as (c & V & H). destruct H' as (c' & V' & H').
  apply shows_ok in H as (x & y & z & X & Y & R & SG & CA & T). apply shows_ok in H' as (x' & y' & z' & X' & Y' & R' & SG' & CA' & T').
  exists c, c', x, x', y, y'. split; [exact V|]. split; [exact V'|]. rewrite R, R'.
  split; [exact X|]. split; [exact X'|]. split; [vm_compute; reflexivity|]. split; [vm_compute; reflexivity|].
  split. { intros E. apply (f_equal (fun l => nth 150 l 0)) in E. vm_compute in E. discriminate E. }
  split; [exact Y|]. split; [exact Y'|]. split; [congruence|]. split; [congruence|].
  unfold certified. rewrite T, T'. congruence.
Qed.

(** ** C60 *)

(** After a success the message has the dates that were signed: the end of validity
    in the first-generation certificate, and both dates in the second-generation
    one.  So a caller can refuse what has expired; the library does not
    (C60_expired_refuted). *)
Theorem C60_expired_partial : forall k r cm us c c', hash_bytes k -> answers_bytes r ->
  Forall dumped_ok us -> accepted cm us c -> verify_file k r (Some (driver_file c)) = (Ok tt, Some (driver_file c')) ->
  (dc_has c Gen1 = true -> exists x x' name n e content,
     card_certificate c = Some x /\ card_certificate c' = Some x' /\ rsa_raw x' = rsa_raw x /\
     authority k r (rsa_car x) name n e /\ issued k (rsa_raw x) name n e content /\
     rsa_eov x' = Some (mkTs (be (sub content 16 4)) 0)) /\
  (dc_has c Gen2 = true -> exists x a key bits cv body before from to rest p q,
     card_sign_certificate c' = Some x /\ get_ecc r (ecc_car x) = Ok (Some a) /\
     ecc_pk a = Some key /\ parse_curve_oid (key_oid key) = Ok (bits, cv) /\ ecc_sig x = Some (p, q) /\
     ecdsa k cv (be (key_x key)) (be (key_y key)) (sha2 k bits (rv_full body)) (be p) (be q) = Some true /\
     Forall element (before ++ [from; to]) /\ length before = 5%nat /\
     rv_bytes body = concat (map rv_full before) ++ rv_full from ++ rv_full to ++ rest /\
     length (rv_bytes from) = 4%nat /\ length (rv_bytes to) = 4%nat /\
     ecc_from x = Some (mkTs (be (rv_bytes from)) 0) /\ ecc_to x = Some (mkTs (be (rv_bytes to)) 0)).
Proof.
  intros k r cm us c c' HK R V A E.
  unfold verify_file, driver_file in E. cbn [file_type file_driver_card file_vu file_raw_card] in E.
  change (FILE_DRIVER_CARD =? FILE_DRIVER_CARD) with true in E. cbn iota in E.
  destruct (verify_driver_card k (Some r) c) as [o d] eqn:VD. injection E as -> ->.
  unfold verify_driver_card in VD.
  destruct (if dc_has c Gen1 then verify_gen1 k (Some r) c else (Ok tt, c)) as [o1 c1] eqn:E1.
  destruct o1 as [[]|?|]; try discriminate VD.
  assert (G2 : dc_has c1 Gen2 = dc_has c Gen2 /\ card_sign_certificate c1 = card_sign_certificate c).
  { destruct (dc_has c Gen1).
    - pose proof (verify_gen1_frame k (Some r) c) as (F0 & _). pose proof (sign_after k (Some r) c) as (_ & G). rewrite E1 in F0, G. auto.
    - injection E1 as <-. auto. }
  assert (K1 : card_certificate c' = card_certificate c1).
  { rewrite (proj1 G2) in VD. destruct (dc_has c Gen2); [|now injection VD as <-].
    unfold verify_gen2 in VD. destruct (card_sign_certificate c1) as [x|]; [|discriminate VD].
    destruct (obtain_ecc_ca (Some r) c1 x) as [ca|?|]; try discriminate VD.
    destruct (verify_ecc k x ca) as [? x']. injection VD as _ <-. unfold card_certificate, store_ecc.
    rewrite slot_set_other by discriminate. reflexivity. }
  split; intros P.
  - rewrite P in E1. unfold verify_gen1 in E1. destruct (card_certificate c) as [x|] eqn:X; [|discriminate E1].
    destruct (obtain_rsa_ca k (Some r) c x) as [ca|?|] eqn:O; try discriminate E1. cbn [verify_rsa_with_ca] in E1.
    destruct (obtain_ok k r c x ca HK R O) as (AU & BN).
    destruct (verify_rsa k x (rsa_n ca) (rsa_e ca) (rsa_chr ca)) as [o x'] eqn:VR. injection E1 as -> <-.
    destruct (rsa_from_dump cm us c x V A X) as (? & u & ? & _ & _ & _ & _ & Q & _ & _ & B). rewrite <- Q in B.
    apply verify_rsa_ok in VR as (content & IS & ->); auto.
    exists x, (rsa_filled x content), (rsa_chr ca), (rsa_n ca), (rsa_e ca), content.
    split; [reflexivity|]. split; [|auto].
    rewrite K1. unfold card_certificate, store_rsa. rewrite slot_set_same. reflexivity.
  - destruct G2 as [G2 G3]. rewrite G2, P in VD. unfold verify_gen2 in VD. rewrite G3 in VD.
    destruct (card_sign_certificate c) as [x|] eqn:X; [|discriminate VD]. cbn [obtain_ecc_ca] in VD.
    destruct (get_ecc r (ecc_car x)) as [ca|?|] eqn:GE; try discriminate VD.
    destruct (verify_ecc k x ca) as [o x'] eqn:VE. injection VD as -> <-.
    destruct ca as [ca|]; [|discriminate VE].
    destruct (ecc_from_dump cm us c x V A X) as (? & u & ? & _ & _ & _ & _ & Q & B).
    destruct (ecc_length _ _ Q) as (L & RX). assert (BX : bytes_ok (ecc_raw x)) by now rewrite RX.
    destruct (verify_ecc_cases k x ca BX) as [(_ & SGN & M)|[(_ & _ & [W|W])|(_ & e & W)]]; rewrite VE in *; try discriminate W; try discriminate.
    injection M as ->.
    destruct SGN as (key & bits & cv & outer & body & t0 & t1 & p & q & S1 & _ & _ & S4 & S5 & S6 & S7 & S8 & S9 & S10).
    destruct (C62_certificates_parsed (u_val u) B) as (_ & _ & LY & _). apply LY in Q as (_ & Q).
    destruct Q as (outer' & body' & cpi & car & cha & pk & oid & point & chr & from & to & sg & ob & px & py & rr & ss & u0 & u1 & u2 & u3 &
      EL & D1 & D2 & D3 & D4 & _ & _ & _ & _ & LF & LT & _ & _ & _ & _ & _ & _ & EX).
    assert (EO : asn1_raw (u_val u) = Ok (outer, t0)) by (apply raw_iff; auto; split; [auto|now rewrite <- RX]).
    rewrite !Forall_cons_iff in EL. destruct EL as (EL1 & EL2 & EL3 & EL4 & EL5 & EL6 & _ & _ & EL9 & EL10 & EL11 & _).
    assert (EO' : asn1_raw (u_val u) = Ok (outer', u0)) by (apply raw_iff; auto).
    rewrite EO in EO'. injection EO' as <- <-.
    assert (BO : bytes_ok (rv_bytes outer)).
    { apply (element_ok outer); auto. rewrite D1 in B. now apply bytes_ok_app in B as [B _]. }
    assert (EB : asn1_raw (rv_bytes outer) = Ok (body, t1)) by (apply raw_iff; auto).
    assert (EB' : asn1_raw (rv_bytes outer) = Ok (body', rv_full sg ++ u1)) by (apply raw_iff; auto).
    rewrite EB in EB'. injection EB' as <- _.
    exists (ecc_mark x true), ca, key, bits, cv, body, [cpi; car; cha; pk; chr], from, to, u2, p, q.
    split. { unfold card_sign_certificate, store_ecc. rewrite slot_set_same. reflexivity. }
    split; [exact GE|]. split; [exact S1|]. split; [exact S4|]. split; [exact S9|]. split; [exact S10|].
    split. { repeat (apply Forall_cons; [assumption|]). constructor. }
    split; [reflexivity|]. split. { rewrite D3. cbn [map concat]. rewrite <- !app_assoc. reflexivity. }
    split; [exact LF|]. split; [exact LT|]. rewrite EX. split; reflexivity.
Qed.
Print Assumptions C60_expired_partial.

(** For the verified card of Props_Verify, with the dates of 1970. *)
Example C60_example : exists c c', Forall dumped_ok (toy_dump [0; 0; 0; 1] [0; 0; 0; 1] 1) /\
  accepted no_charmap (toy_dump [0; 0; 0; 1] [0; 0; 0; 1] 1) c /\
  verify_file toy (toy_resolver toy_root) (Some (driver_file c)) = (Ok tt, Some (driver_file c')) /\
  dc_has c Gen1 = true /\ dc_has c Gen2 = true.
Proof.
  destruct toy_verified as (c & (V & A & O) & D).
  destruct (verify_file toy (toy_resolver toy_root) (Some (driver_file c))) as [o f] eqn:E. cbn [fst] in O. subst o.
  assert (W := E). unfold verify_file, driver_file in W. cbn [file_type file_driver_card file_vu file_raw_card] in W.
  change (FILE_DRIVER_CARD =? FILE_DRIVER_CARD) with true in W. cbn iota in W.
  destruct (verify_driver_card toy (Some (toy_resolver toy_root)) c) as [o c'] eqn:VD. injection W as _ <-.
  exists c, c'. split; [exact V|]. split; [exact A|]. split; [exact E|]. now apply andb_true_iff in D.
Qed.
