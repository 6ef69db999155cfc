(** C143: whether a certificate has other forms that pass. *)

From Coq Require Import Zpow_facts.
From Verif Require Import Base Enums DDScalar P_Scalar Asn1 Cert P_Cert Props_Cert Verify DriverCard Api P_Dump P_Driver
  Props_RawCard Props_Dump Props_Driver Props_Verify Props_Altered P_SameCard.

(** ** What cannot be changed *)

(** Two different first-generation certificates that have the same signature and pass
    with the same authority are a collision of the hash. *)
Theorem C143_first_partial : forall k n e name d d' x x' y y', hash_bytes k -> bytes_ok n -> bytes_ok d -> bytes_ok d' ->
  unmarshal_rsa d = Ok x -> unmarshal_rsa d' = Ok x' ->
  verify_rsa k x n e name = (Ok tt, y) -> verify_rsa k x' n e name = (Ok tt, y') ->
  sub d 0 128 = sub d' 0 128 -> d <> d' ->
  exists m m', m <> m' /\ sha1 k m = sha1 k m'.
Proof.
  intros k n e name d d' x x' y y' HK BN B B' U U' W W' SR N.
  apply C62_certificates_parsed in U as (sr & cn & car & D & L1 & L2 & L3 & ->); auto.
  apply C62_certificates_parsed in U' as (sr' & cn' & car' & D' & L1' & L2' & L3' & ->); auto.
  apply verify_rsa_ok in W as (ct & (L & _ & _ & C & G) & _); auto. apply verify_rsa_ok in W' as (ct' & (L' & _ & _ & C' & G') & _); auto.
  cbn [rsa_raw] in *. exists ct, ct'. destruct (same_signature k _ _ _ _ _ _ HK SR G G') as (_ & E). split; [|exact E].
  intros <-. apply N. eapply same_content; eauto. rewrite C in C'.
  assert (B1 := bytes_ok_sub d 186 8 B). assert (B1' := bytes_ok_sub d' 186 8 B').
  apply be_inj; auto; [rewrite !sub_length by lia; reflexivity|].
  apply dec_inj in C'; [exact C'|apply be_range, B1|apply be_range, B1'].
Qed.
Print Assumptions C143_first_partial.

(** Two second-generation certificates that have the same signature and pass with the
    same authority have the same body, byte for byte and with it all the fields, or
    there is a collision of the hash or one signature for two hashes. *)
Theorem C143_second_partial : forall k ca d d' x x' y y', bytes_ok d -> bytes_ok d' ->
  unmarshal_ecc d = Ok x -> unmarshal_ecc d' = Ok x' ->
  verify_ecc k x (Some ca) = (Ok tt, y) -> verify_ecc k x' (Some ca) = (Ok tt, y') -> ecc_sig x = ecc_sig x' ->
  (exists outer outer' body t0 t1 t0' t1', element outer /\ element outer' /\ element body /\
     d = rv_full outer ++ t0 /\ rv_bytes outer = rv_full body ++ t1 /\
     d' = rv_full outer' ++ t0' /\ rv_bytes outer' = rv_full body ++ t1' /\ certified x = certified x') \/
  (exists bits m m', m <> m' /\ sha2 k bits m = sha2 k bits m') \/
  (exists cv px py h h' p q, h <> h' /\ ecdsa k cv px py h p q = Some true /\ ecdsa k cv px py h' p q = Some true).
Proof.
  intros k ca d d' x x' y y' B B' U U' W W' SG.
  destruct (ecc_length _ _ U) as (_ & F1). destruct (ecc_length _ _ U') as (_ & F2).
  assert (BX : bytes_ok (ecc_raw x)) by now rewrite F1. assert (BX' : bytes_ok (ecc_raw x')) by now rewrite F2.
  destruct (verify_ecc_cases k x ca BX) as [(_ & S & M)|[(_ & _ & [M|M])|(_ & e & M)]]; rewrite W in M; try discriminate M; clear M.
  destruct (verify_ecc_cases k x' ca BX') as [(_ & S' & M)|[(_ & _ & [M|M])|(_ & e & M)]]; rewrite W' in M; try discriminate M; clear M.
  destruct S as (key & bits & cv & outer & body & t0 & t1 & p & q & K1 & _ & _ & K2 & V1 & V2 & D1 & D2 & SS & EC).
  destruct S' as (key' & bits' & cv' & outer' & body' & t0' & t1' & p' & q' & K1' & _ & _ & K2' & V1' & V2' & D1' & D2' & SS' & EC').
  rewrite K1 in K1'. injection K1' as <-. rewrite K2 in K2'. injection K2' as <- <-. rewrite SG, SS' in SS. injection SS as <- <-.
  rewrite F1 in D1. rewrite F2 in D1'.
  destruct (list_eq_dec Z.eq_dec (rv_full body) (rv_full body')) as [E|E].
  - left.
    assert (BB : bytes_ok (rv_full body)).
    { assert (BO : bytes_ok (rv_bytes outer)) by (apply (element_ok outer); auto; rewrite D1 in B; now apply bytes_ok_app in B as [B _]).
      rewrite D2 in BO. now apply bytes_ok_app in BO as [BO _]. }
    assert (Q : body = body') by (apply element_inj; auto). subst body'.
    exists outer, outer', body, t0, t1, t0', t1'. do 7 (split; [assumption|]).
    exact (same_body d d' x x' outer body t0 t1 outer' body t0' t1' B B' U U' V1 V2 D1 D2 V1' V2' D1' D2' E).
  - right. destruct (list_eq_dec Z.eq_dec (sha2 k bits (rv_full body)) (sha2 k bits (rv_full body'))) as [H|H].
    + left. eauto.
    + right. eauto 12.
Qed.
Print Assumptions C143_second_partial.

(** ** What can *)

(** The signature of a first-generation certificate is taken modulo the modulus and may
    be larger: adding the modulus gives another certificate that passes. *)
Theorem C143_shifted : forall k n e name d x y, hash_bytes k -> bytes_ok n -> bytes_ok d ->
  unmarshal_rsa d = Ok x -> verify_rsa k x n e name = (Ok tt, y) ->
  0 < be n -> be (sub d 0 128) + be n < 256 ^ 128 ->
  let d' := to_be 128 (be (sub d 0 128) + be n) ++ skipn 128 d in
  d' <> d /\ bytes_ok d' /\ exists x' y', unmarshal_rsa d' = Ok x' /\ verify_rsa k x' n e name = (Ok tt, y') /\
    (rsa_chr y', rsa_car y', rsa_eov y', rsa_n y', rsa_e y') = (rsa_chr y, rsa_car y, rsa_eov y, rsa_n y, rsa_e y).
Proof.
  intros k n e name d x y HK BN B U W P LT d'.
  assert (RS := be_range _ (bytes_ok_sub d 0 128 B)).
  assert (EV : be (to_be 128 (be (sub d 0 128) + be n)) = be (sub d 0 128) + be n).
  { rewrite be_to_be. change (256 ^ Z.of_nat 128) with (256 ^ 128). apply Z.mod_small. lia. }
  set (s' := to_be 128 (be (sub d 0 128) + be n)) in *.
  assert (LS : length s' = 128%nat) by apply to_be_length. assert (BS : bytes_ok s') by apply to_be_ok.
  apply C62_certificates_parsed in U as (sr & cn & car & D & L1 & L2 & L3 & ->); auto.
  assert (LD : length d = 194%nat) by (rewrite D, !app_length; lia).
  assert (T : skipn 128 d = cn ++ car) by (rewrite D, <- L1; rewrite skipn_app, skipn_all, Nat.sub_diag; reflexivity).
  assert (B' : bytes_ok d').
  { unfold d'. apply bytes_ok_app. split; auto. rewrite T. rewrite D in B. now apply bytes_ok_app in B as [_ B]. }
  assert (L' : length d' = 194%nat) by (unfold d'; rewrite T, !app_length; lia).
  assert (S0 : sub d' 0 128 = s').
  { unfold d'. rewrite <- LS. now rewrite sub_app_l. }
  assert (R1 : sub d' 128 58 = sub d 128 58).
  { unfold d'. rewrite T, D. rewrite !sub_app_r by lia. rewrite <- L2. rewrite !firstn_app, firstn_all, Nat.sub_diag. reflexivity. }
  assert (R2 : sub d' 186 8 = sub d 186 8).
  { unfold d'. rewrite T, D. rewrite !app_assoc. rewrite !sub_app_r by (rewrite !app_length; lia). reflexivity. }
  split; [|split; [exact B'|]].
  { intros Q. rewrite Q in S0. rewrite S0 in EV. lia. }
  apply verify_rsa_ok in W as (ct & (_ & NN & NE & C & cr & C1 & C2 & C3 & C4 & C5) & ->); auto. cbn [rsa_raw] in *.
  set (x' := {| rsa_chr := []; rsa_car := dec (be car); rsa_eov := None; rsa_n := []; rsa_e := []; rsa_raw := d'; rsa_valid := None |}).
  exists x', (rsa_filled x' ct). split; [|split].
  - apply C62_certificates_parsed; auto. exists s', cn, car. split; [unfold d'; now rewrite T|]. auto.
  - apply verify_rsa_ok; auto. exists ct. split; [|reflexivity]. cbn [x' rsa_raw].
    split; [exact L'|]. split; [exact NN|]. split; [exact NE|]. split; [now rewrite R2|].
    exists cr. rewrite R1, S0, EV. split; [exact C1|]. split; [exact C2|]. split; [exact C3|]. split; [exact C4|].
    destruct C5 as [[Z0 _]|[NZ E]]; [lia|]. right. split; [exact NZ|]. rewrite E.
    rewrite (Zpower_mod (be (sub d 0 128) + be n)) by exact P.
    rewrite <- (Z.mul_1_l (be n)) at 2. rewrite Z_mod_plus_full. symmetry. now rewrite <- Zpower_mod.
  - reflexivity.
Qed.
Print Assumptions C143_shifted.

(** A second-generation certificate may be followed by bytes that nobody signed, up to
    341 bytes in all. *)
Theorem C143_trailing : forall k ca d t x y, bytes_ok d -> bytes_ok t -> (length (d ++ t) <= 341)%nat ->
  unmarshal_ecc d = Ok x -> verify_ecc k x (Some ca) = (Ok tt, y) ->
  exists x' y', unmarshal_ecc (d ++ t) = Ok x' /\ verify_ecc k x' (Some ca) = (Ok tt, y') /\
    certified y' = certified y /\ ecc_sig y' = ecc_sig y.
Proof.
  intros k ca d t x y B BT L U W. assert (B' : bytes_ok (d ++ t)) by now apply bytes_ok_app.
  destruct (ecc_length _ _ U) as (LD & F1). assert (BX : bytes_ok (ecc_raw x)) by now rewrite F1.
  destruct (verify_ecc_cases k x ca BX) as [(_ & S & M)|[(_ & _ & [M|M])|(_ & e & M)]]; rewrite W in M; try discriminate M.
  injection M as ->. apply C62_certificates_parsed in U as (_ & U); auto.
  set (x' := {| ecc_cpi := ecc_cpi x; ecc_car := ecc_car x; ecc_cha := ecc_cha x; ecc_pk := ecc_pk x; ecc_chr := ecc_chr x;
    ecc_from := ecc_from x; ecc_to := ecc_to x; ecc_sig := ecc_sig x; ecc_valid := ecc_valid x; ecc_raw := d ++ t |}).
  exists x', (ecc_mark x' true). split; [|split; [|split; reflexivity]].
  - apply C62_certificates_parsed; auto. split; [rewrite app_length in *; lia|].
    destruct U as (outer & body & cpi & car & cha & pk & oid & point & chr & from & to & sg & o & px & py & r & s & t0 & t1 & t2 & t3 & H).
    exists outer, body, cpi, car, cha, pk, oid, point, chr, from, to, sg, o, px, py, r, s, (t0 ++ t), t1, t2, t3.
    destruct H as (H0 & H1 & H2 & H3 & H4 & H5 & H6 & H7 & H8 & H9 & H10 & H11 & H12 & H13 & H14 & H15 & H16 & H17).
    split; [exact H0|]. split; [rewrite H1; now rewrite <- app_assoc|]. do 15 (split; [assumption|]).
    unfold x'. rewrite H17. reflexivity.
  - destruct S as (key & bits & cv & outer & body & t0 & t1 & p & q & K1 & KX & KY & K2 & V1 & V2 & D1 & D2 & SS & EC).
    assert (S' : ecc_signed k x' ca).
    { exists key, bits, cv, outer, body, (t0 ++ t), t1, p, q. do 6 (split; [assumption|]).
      split; [cbn [x' ecc_raw]; rewrite <- F1, D1; now rewrite <- app_assoc|]. auto. }
    destruct (verify_ecc_cases k x' ca) as [(_ & _ & M)|[(_ & NS & _)|(NA & _)]]; [exact B'|exact M|contradiction|].
    exfalso. apply NA. split; [cbn [x' ecc_raw]; rewrite app_length in *; lia|]. split.
    + exists key. do 3 (split; [assumption|]). now rewrite K2.
    + exists outer, body, (t0 ++ t), t1. do 2 (split; [assumption|]). split; [cbn [x' ecc_raw]; rewrite <- F1, D1; now rewrite <- app_assoc|exact D2].
Qed.
Print Assumptions C143_trailing.

(** ** Witnesses *)

(** A modulus with room above it: 0x70 and 127 zero bytes. *)
Definition roomy : bytes := 0x70 :: zeros 127.

(** The certificate of Props_Verify passes with the exponent 1 and that modulus. *)
Lemma roomy_passes : exists x y, bytes_ok roomy /\ bytes_ok (gen1_certificate 7 9 [0; 0; 0; 1]) /\ unmarshal_rsa (gen1_certificate 7 9 [0; 0; 0; 1]) = Ok x /\
  verify_rsa toy x roomy [1] (dec 7) = (Ok tt, y) /\ 0 < be roomy /\
  be (sub (gen1_certificate 7 9 [0; 0; 0; 1]) 0 128) + be roomy < 256 ^ 128.
Proof.
  do 2 eexists. split; [apply bytes_okb_ok; vm_compute; reflexivity|]. split; [apply bytes_okb_ok; vm_compute; reflexivity|].
  split; [reflexivity|]. split; [vm_compute; reflexivity|]. split; vm_compute; reflexivity.
Qed.

Definition outer_tag (t : Z) : bytes :=
  tlv [127; t] (sample_body [0; 0; 0; 0; 0; 0; 0; 42] [93; 0; 0; 0] [107; 0; 0; 0] (repeat 1 32) (repeat 2 32) ++
    tlv [95; 55] (repeat 5 32 ++ repeat 5 32)).

Definition some_authority : ecc_cert :=
  mkEcc 0 [] [] (Some (mkKey (oid_string oid_bp256) [1] [2])) [] None None None None [].

Lemma outer_tag_passes t : t = 33 \/ t = 34 -> exists x y, bytes_ok (outer_tag t) /\ unmarshal_ecc (outer_tag t) = Ok x /\
  verify_ecc toy x (Some some_authority) = (Ok tt, y) /\ ecc_sig y = Some (repeat 5 32, repeat 5 32) /\ ecc_chr y = [52; 50].
Proof.
  intros [-> | ->]; do 2 eexists; (split; [apply bytes_okb_ok; vm_compute; reflexivity|]);
    (split; [vm_compute; reflexivity|]); (split; [vm_compute; reflexivity|]); split; reflexivity.
Qed.

(** Certificates have several forms: of the first generation with two signatures for
    the same content, of the second with the same signature and another tag, of the
    same length. *)
Theorem C143_one_form_refuted :
  (exists k n e name d d' x x' y y', hash_bytes k /\ d <> d' /\ skipn 128 d = skipn 128 d' /\
     unmarshal_rsa d = Ok x /\ unmarshal_rsa d' = Ok x' /\
     verify_rsa k x n e name = (Ok tt, y) /\ verify_rsa k x' n e name = (Ok tt, y')) /\
  (exists k ca d d' x x' y y', d <> d' /\ length d = length d' /\ unmarshal_ecc d = Ok x /\ unmarshal_ecc d' = Ok x' /\
     verify_ecc k x (Some ca) = (Ok tt, y) /\ verify_ecc k x' (Some ca) = (Ok tt, y') /\ ecc_sig y = ecc_sig y').
Proof.
  split.
  - destruct roomy_passes as (x & y & BN & B & U & W & P & L).
    destruct (C143_shifted toy roomy [1] (dec 7) _ x y hash_toy BN B U W P L) as (N & _ & x' & y' & U' & W' & _).
    exists toy, roomy, [1], (dec 7). do 2 eexists. exists x, x', y, y'. split; [exact hash_toy|].
    split; [intros Q; apply N; symmetry; exact Q|].
    split; [|split; [exact U|split; [exact U'|split; [exact W|exact W']]]].
    rewrite skipn_app, to_be_length, Nat.sub_diag, (skipn_all2 (to_be _ _)) by (rewrite to_be_length; lia). reflexivity.
  - destruct (outer_tag_passes 33) as (x & y & B & U & W & S & _); [auto|]. destruct (outer_tag_passes 34) as (x' & y' & B' & U' & W' & S' & _); [auto|].
    exists toy, some_authority, (outer_tag 33), (outer_tag 34), x, x', y, y'.
    split; [intros Q; apply (f_equal (fun l => nth 1 l 0)) in Q; vm_compute in Q; discriminate Q|].
    split; [reflexivity|]. split; [exact U|]. split; [exact U'|]. split; [exact W|]. split; [exact W'|]. congruence.
Qed.
Print Assumptions C143_one_form_refuted.

(** The hypotheses of the theorems above are met: of the toy hash, which looks at 20
    bytes, by two certificates that differ behind them; by a certificate of 205 bytes
    with 136 behind it. *)
Definition other_form : bytes :=
  firstn 150 (gen1_certificate 7 9 [0; 0; 0; 1]) ++ [3] ++ skipn 151 (gen1_certificate 7 9 [0; 0; 0; 1]).

Example C143_example :
  (exists d d' x x' y y', bytes_ok d /\ bytes_ok d' /\ unmarshal_rsa d = Ok x /\ unmarshal_rsa d' = Ok x' /\
     verify_rsa toy x roomy [1] (dec 7) = (Ok tt, y) /\ verify_rsa toy x' roomy [1] (dec 7) = (Ok tt, y') /\
     sub d 0 128 = sub d' 0 128 /\ d <> d') /\
  (exists d x y, bytes_ok d /\ bytes_ok (zeros 136) /\ (length (d ++ zeros 136) <= 341)%nat /\ unmarshal_ecc d = Ok x /\
     verify_ecc toy x (Some some_authority) = (Ok tt, y)).
Proof.
  split.
  - exists (gen1_certificate 7 9 [0; 0; 0; 1]), other_form. do 4 eexists.
    split; [apply bytes_okb_ok; vm_compute; reflexivity|]. split; [apply bytes_okb_ok; vm_compute; reflexivity|].
    split; [reflexivity|]. split; [reflexivity|]. split; [vm_compute; reflexivity|]. split; [vm_compute; reflexivity|].
    split; [vm_compute; reflexivity|]. intros Q. apply (f_equal (fun l => nth 150 l 0)) in Q. vm_compute in Q. discriminate Q.
  - destruct (outer_tag_passes 33) as (x & y & B & U & W & _); [auto|]. exists (outer_tag 33), x, y.
    split; [exact B|]. split; [apply bytes_okb_ok; reflexivity|]. split; [apply Nat.leb_le; vm_compute; reflexivity|]. auto.
Qed.
