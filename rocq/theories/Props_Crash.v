(** C111: when verifying a file crashes. *)

From Verif Require Import Base DDScalar RawTypes RawCard Asn1 Cert P_Cert DriverCard P_Driver Vu P_Vu Verify Api P_Dump Props_Dump Props_Driver.
From Verif Require Import Props_Cert Props_Verify.

(** The source of certificates itself does not crash. *)
Definition quiet (r : resolver) : Prop :=
  get_root r <> Panic /\ (forall q, get_rsa r q <> Panic) /\ (forall q, get_ecc r q <> Panic).

(** Checking the certificate [x] under the certificate [a] comes down to the ECDSA
    question for hash [h], the numbers [r] and [s] of the signature, and the point
    ([px], [py]) of curve [cv] (Appendix 11, 9.3.2). *)
Definition asks (k : crypto) (x a : ecc_cert) (cv : curve) (px py : Z) (h : bytes) (r s : Z) : Prop :=
  exists key bits outer body t0 t1 rb sb,
    (204 <= length (ecc_raw x) <= 341)%nat /\
    ecc_pk a = Some key /\ key_x key <> [] /\ key_y key <> [] /\ parse_curve_oid (key_oid key) = Ok (bits, cv) /\
    element outer /\ element body /\ ecc_raw x = rv_full outer ++ t0 /\ rv_bytes outer = rv_full body ++ t1 /\
    ecc_sig x = Some (rb, sb) /\
    px = be (key_x key) /\ py = be (key_y key) /\ h = sha2 k bits (rv_full body) /\ r = be rb /\ s = be sb.

Lemma verify_ecc_panic k x ca : bytes_ok (ecc_raw x) ->
  fst (verify_ecc k x ca) = Panic <->
  exists a cv px py h r s, ca = Some a /\ asks k x a cv px py h r s /\ ecdsa k cv px py h r s = None.
Proof.
  intros H. unfold verify_ecc. split.
  - destruct (ecc_prepare k x ca) as [[[[h cv] px] py]|?|] eqn:E; [|discriminate|].
    + destruct (ecc_sig x) as [[rb sb]|] eqn:S; [|discriminate].
      destruct (ecdsa k cv px py h (be rb) (be sb)) as [[]|] eqn:D; try discriminate. intros _.
      destruct ca as [a|]; [|discriminate]. exists a, cv, px, py, h, (be rb), (be sb). split; [reflexivity|]. split; [|exact D].
      unfold ecc_prepare in E. destruct (Nat.ltb_spec (length (ecc_raw x)) 204); [discriminate|].
      destruct (Nat.ltb_spec 341 (length (ecc_raw x))); [discriminate|]. cbn [negb orb guard bind] in E.
      destruct (ecc_pk a) as [key|] eqn:EK; [|discriminate].
      destruct (Nat.eqb_spec (length (key_x key)) 0) as [|X]; [discriminate|].
      destruct (Nat.eqb_spec (length (key_y key)) 0) as [|Y]; [discriminate|]. cbn [negb orb guard bind] in E.
      destruct (parse_curve_oid (key_oid key)) as [[bits cv']| |] eqn:P; try discriminate. cbn [bind] in E.
      destruct (asn1_raw (ecc_raw x)) as [[outer t0]| |] eqn:R0; try discriminate. cbn [bind] in E.
      apply raw_iff in R0 as [V0 D0]; auto.
      assert (HO : bytes_ok (rv_bytes outer)). { apply element_ok; auto. rewrite D0 in H. now apply bytes_ok_app in H. }
      destruct (asn1_raw (rv_bytes outer)) as [[body t1]| |] eqn:R1; try discriminate. cbn [bind] in E.
      apply raw_iff in R1 as [V1 D1]; auto. apply Ok_inj in E. injection E as <- <- <- <-.
      exists key, bits, outer, body, t0, t1, rb, sb.
      assert (key_x key <> []) by (intros Z0; rewrite Z0 in X; now apply X).
      assert (key_y key <> []) by (intros Z0; rewrite Z0 in Y; now apply Y). intuition.
    + exfalso. destruct ca as [a|]; [|discriminate]. unfold ecc_prepare in E. destruct (negb _); [|discriminate]. cbn [guard bind] in E.
      destruct (ecc_pk a) as [key|]; [|discriminate]. destruct (negb _); [|discriminate]. cbn [guard bind] in E.
      destruct (parse_curve_oid (key_oid key)) as [[bits cv]| |] eqn:P; try discriminate.
      * cbn [bind] in E. destruct (asn1_raw (ecc_raw x)) as [[o t0]| |] eqn:R; try discriminate.
        -- cbn [bind] in E. destruct (asn1_raw (rv_bytes o)) as [[b t1]| |] eqn:R1; try discriminate. now apply raw_no_panic in R1.
        -- now apply raw_no_panic in R.
      * now apply parse_curve_no_panic in P.
  - intros (a & cv & px & py & h & r & s & -> & (key & bits & outer & body & t0 & t1 & rb & sb & L & EK & X & Y & P & VO & VB & D & DB & S & -> & -> & -> & -> & ->) & N).
    unfold ecc_prepare. destruct (Nat.ltb_spec (length (ecc_raw x)) 204); [lia|].
    destruct (Nat.ltb_spec 341 (length (ecc_raw x))); [lia|]. cbn [negb orb guard bind]. rewrite EK.
    replace (length (key_x key) =? 0)%nat with false by (destruct (key_x key); [now destruct X|reflexivity]).
    replace (length (key_y key) =? 0)%nat with false by (destruct (key_y key); [now destruct Y|reflexivity]).
    cbn [negb orb guard bind]. rewrite P. cbn [bind]. rewrite (proj2 (raw_iff _ outer t0 H)) by auto. cbn [bind].
    assert (HO : bytes_ok (rv_bytes outer)). { apply element_ok; auto. rewrite D in H. now apply bytes_ok_app in H. }
    rewrite (proj2 (raw_iff _ body t1 HO)) by auto. cbn [bind]. rewrite S, N. reflexivity.
Qed.

Lemma verify_rsa_np k c n e chr : fst (verify_rsa k c n e chr) <> Panic.
Proof. unfold verify_rsa. cbv zeta. repeat match goal with |- context [if ?b then _ else _] => destruct b; [discriminate|] end. discriminate. Qed.

Lemma gen1_np k r c : quiet r -> fst (verify_gen1 k (Some r) c) <> Panic.
Proof.
  intros (Q1 & Q2 & _). unfold verify_gen1. destruct (card_certificate c) as [x|]; [|discriminate].
  destruct (obtain_rsa_ca k (Some r) c x) as [ca|?|] eqn:O; [|discriminate|].
  - cbn [verify_rsa_with_ca]. pose proof (verify_rsa_np k x (rsa_n ca) (rsa_e ca) (rsa_chr ca)) as V.
    destruct (verify_rsa k x _ _ _). exact V.
  - exfalso. unfold obtain_rsa_ca in O. apply bind_panic in O as [O|(o & _ & O)]; [now apply Q2 in O|]. cbv zeta in O.
    destruct (_ || _); [|discriminate]. apply bind_panic in O as [O|(root & _ & O)]; [now apply Q1 in O|].
    destruct o as [ca|]; [|discriminate]. destruct root as [rt|]; [|discriminate]. cbn [verify_rsa_with_root] in O.
    pose proof (verify_rsa_np k ca (root_n rt) (root_e rt) (root_key_id rt)) as V.
    destruct (verify_rsa k ca _ _ _) as [[]]; try discriminate. now apply V.
Qed.

(** The file with the second-generation application of its card taken out. *)
Definition without_gen2 (f : file) : file :=
  mkFile (file_type f) (file_vu f)
    (option_map (fun c => mkDC (fun a => match a with Gen2 => false | _ => dc_has c a end) (dc_slot c)) (file_driver_card f))
    (file_raw_card f).

Lemma without_fst k r f c : file_type f = 2 -> file_driver_card f = Some c ->
  fst (verify_file k r (Some (without_gen2 f))) = if dc_has c Gen1 then fst (verify_gen1 k (Some r) c) else Ok tt.
Proof.
  intros T C. unfold verify_file, without_gen2, FILE_DRIVER_CARD. cbn [file_type file_driver_card file_vu file_raw_card].
  rewrite T, C. cbn [Z.eqb Pos.eqb option_map]. set (c1 := mkDC _ _).
  pose proof (verify_driver_fst k r c1) as V. destruct (verify_driver_card k (Some r) c1) as [o c2]. cbn [fst] in *. rewrite V.
  cbn [c1 dc_has]. destruct (dc_has c Gen1) eqn:G; [|reflexivity].
  assert (E : fst (verify_gen1 k (Some r) c1) = fst (verify_gen1 k (Some r) c)).
  { assert (X : card_certificate c1 = card_certificate c).
    { unfold card_certificate, slot_of_card. reflexivity. }
    destruct (card_certificate c) as [x|] eqn:XC; [now apply (gen1_fst k r c c1 x x)|]. unfold verify_gen1. now rewrite X, XC. }
  rewrite E. destruct (fst (verify_gen1 k (Some r) c)) as [[]|?|]; reflexivity.
Qed.

(** With a source that does not crash, VerifyFile crashes exactly if the file is a
    driver card that verifies when its second-generation application is taken out,
    has one with a signing certificate, the source has the certificate of the
    authority named in it, and ECDSA verification crashes on the question the two
    certificates make.  Missing: ECDSA verification of Go does crash, on points of
    the authority that are not on their curve, if the curve is a brainpool curve. *)
Theorem C111_verify_panics_partial : forall k r f, quiet r ->
  (forall c x, file_driver_card f = Some c -> card_sign_certificate c = Some x -> bytes_ok (ecc_raw x)) ->
  fst (verify_file k r (Some f)) = Panic <->
  exists c x a cv px py h rr ss,
    file_type f = 2 /\ file_driver_card f = Some c /\
    fst (verify_file k r (Some (without_gen2 f))) = Ok tt /\
    dc_has c Gen2 = true /\ card_sign_certificate c = Some x /\ get_ecc r (ecc_car x) = Ok (Some a) /\
    asks k x a cv px py h rr ss /\ ecdsa k cv px py h rr ss = None.
Proof.
  intros k r f Q B. split.
  - intros E. unfold verify_file in E. destruct (Z.eqb_spec (file_type f) FILE_DRIVER_CARD) as [T|_].
    2:{ destruct (_ || _); discriminate. }
    destruct (file_driver_card f) as [c|] eqn:C; [|discriminate].
    pose proof (verify_driver_fst k r c) as V. destruct (verify_driver_card k (Some r) c) as [o c']. cbn [fst] in *. subst o.
    pose proof (without_fst k r f c T C) as W. rewrite <- W in V. symmetry in V. apply bind_panic in V as [V|([] & V1 & V2)].
    { exfalso. rewrite W in V. destruct (dc_has c Gen1); [now apply (gen1_np k r c Q)|discriminate]. }
    destruct (dc_has c Gen2) eqn:G; [|discriminate]. unfold verify_gen2 in V2.
    destruct (card_sign_certificate c) as [x|] eqn:X; [|discriminate]. cbn [obtain_ecc_ca] in V2.
    destruct (get_ecc r (ecc_car x)) as [ca|?|] eqn:GE; [|discriminate|].
    + assert (P : fst (verify_ecc k x ca) = Panic) by (destruct (verify_ecc k x ca); exact V2).
      apply verify_ecc_panic in P as (a & cv & px & py & h & rr & ss & -> & A & D); [|eauto].
      exists c, x, a, cv, px, py, h, rr, ss. auto 10.
    + exfalso. destruct Q as (_ & _ & Q). now apply Q in GE.
  - intros (c & x & a & cv & px & py & h & rr & ss & T & C & W & G & X & GE & A & D).
    rewrite (without_fst k r f c T C) in W. unfold verify_file, FILE_DRIVER_CARD. rewrite T, C. cbn [Z.eqb Pos.eqb].
    pose proof (verify_driver_fst k r c) as V. destruct (verify_driver_card k (Some r) c) as [o c']. cbn [fst] in *. subst o.
    rewrite W. cbn [bind]. rewrite G. unfold verify_gen2. rewrite X. cbn [obtain_ecc_ca]. rewrite GE.
    assert (P : fst (verify_ecc k x (Some a)) = Panic).
    { apply verify_ecc_panic; [eauto|]. exists a, cv, px, py, h, rr, ss. auto. }
    destruct (verify_ecc k x (Some a)). exact P.
Qed.
Print Assumptions C111_verify_panics_partial.

Lemma some_np {A} (r : res A) : r <> Panic -> some_res r <> Panic.
Proof. intros H. unfold some_res. apply bind_np; [exact H|discriminate]. Qed.

Lemma success_np {A} (l : list (res A)) : Forall (fun r => r <> Panic) l -> first_success l <> Panic.
Proof. induction 1 as [|[] l H _ IH]; cbn; auto; discriminate. Qed.

(** So much for the default source: it does not crash if fetching a URL does not. *)
Theorem C111_default_source : forall fs http ix, (forall u, http u <> Panic) -> quiet (default_resolver fs http ix).
Proof.
  intros fs http ix H.
  assert (RSA : forall d, some_res (unmarshal_rsa d) <> Panic).
  { intros d. apply some_np. unfold unmarshal_rsa. apply bind_np; [apply guard_no_panic|discriminate]. }
  assert (ECC : forall d, some_res (unmarshal_ecc d) <> Panic) by (intros d; apply some_np, ecc_no_panic).
  split; [|split]; [|intros q..]; unfold default_resolver, chain; cbn [get_root get_rsa get_ecc map embedded client];
    apply success_np; repeat constructor; try discriminate.
  - apply some_np. unfold unmarshal_root. apply bind_np; [apply guard_no_panic|discriminate].
  - destruct (read_g1 fs q); [apply RSA|discriminate].
  - destruct (url_of _ _); [|discriminate]. apply bind_np; [apply H|intros; apply RSA].
  - destruct (read_g2 fs q); [apply ECC|discriminate].
  - destruct (url_of _ _); [|discriminate]. apply bind_np; [apply H|intros; apply ECC].
Qed.
Print Assumptions C111_default_source.

(** brainpoolP256r1 (RFC 5639, 3.4): y^2 = x^3 + A x + B mod p *)
Definition bp256_p : Z := 0xA9FB57DBA1EEA9BC3E660A909D838D726E3BF623D52620282013481D1F6E5377.
Definition bp256_a : Z := 0x7D5A0975FC2C3057EEF67530417AFFE7FB8055C126DC5C6CE94A4B44F330B5D9.
Definition bp256_b : Z := 0x26DC5C6CE94A4B44F330B5D9BBD77CBF958416295CF7E1CE6BCCDC18FF8C07B6.
Definition on_bp256 (x y : Z) : Prop := (y * y) mod bp256_p = (x * x * x + bp256_a * x + bp256_b) mod bp256_p.

(** A card that is accepted, a source that does not crash, and an authority whose
    point is not on its curve: VerifyFile crashes with every ECDSA verification
    that, like Go's (crypto/elliptic panicIfNotOnCurve), crashes on such points. *)
Theorem C111_verify_panics_refuted : exists fs http ix us c,
  (forall u, http u <> Panic) /\ Forall dumped_ok us /\ accepted no_charmap us c /\
  forall k, (forall x y h r s, ~ on_bp256 x y -> ecdsa k BP256 x y h r s = None) ->
    fst (verify_file k (default_resolver fs http ix) (Some (driver_file c))) = Panic.
Proof.
  pose (r := toy_resolver []).
  pose (p := fun c => dc_has c Gen2 && negb (dc_has c Gen1) && match card_sign_certificate c with
      | Some x => match get_ecc r (ecc_car x), ecc_sig x with
                  | Ok (Some a), Some _ =>
                      match ecc_pk a with
                      | Some key => (be (key_x key) =? be (repeat 1 32)) && (be (key_y key) =? be (repeat 2 32)) &&
                          match parse_curve_oid (key_oid key) with Ok (_, BP256) => true | _ => false end
                      | None => false end
                  | _, _ => false end
      | None => false end).
  assert (H : exists c, verified toy r [icc_unit; gen2_unit [0; 0; 0; 1]] c /\ p c = true).
  { apply verified_b_ok. vm_compute. reflexivity. }
  destruct H as (c & (V & A & O) & H). exists (toy_files []), toy_http, toy_index. eexists. exists c.
  assert (HT : forall u, toy_http u <> Panic).
  { intros u. unfold toy_http. repeat (destruct (list_eq_dec _ _ _); [discriminate|]). discriminate. }
  split; [exact HT|]. split; [exact V|]. split; [exact A|]. intros k K.
  change (default_resolver (toy_files []) toy_http toy_index) with r.
  assert (Q : quiet r) by (apply C111_default_source, HT).
  assert (B : forall c0 x, file_driver_card (driver_file c) = Some c0 -> card_sign_certificate c0 = Some x -> bytes_ok (ecc_raw x)).
  { intros c0 x E X. injection E as <-. destruct (ecc_from_dump _ _ _ _ V A X) as (a & u & b & _ & _ & _ & _ & U & BO).
    apply ecc_length in U as (_ & U). now rewrite U. }
  rewrite verify_driver_file in *. rewrite verify_driver_fst in *.
  unfold p in H. apply andb_true_iff in H as [H H2]. apply andb_true_iff in H as [H0 H1]. apply negb_true_iff in H1.
  rewrite H0, H1 in *. cbn [bind] in *. unfold verify_gen2 in *.
  destruct (card_sign_certificate c) as [x|] eqn:X; [|discriminate H2]. cbn [obtain_ecc_ca] in *.
  assert (BX : bytes_ok (ecc_raw x)) by (now apply (B c x)).
  assert (L : (204 <= length (ecc_raw x) <= 341)%nat).
  { destruct (ecc_from_dump _ _ _ _ V A X) as (? & u & ? & _ & _ & _ & _ & U & _). apply ecc_length in U as (U1 & U). now rewrite U. }
  clear - O H2 BX L K. revert O H2. generalize (get_ecc r (ecc_car x)). intros g O H2.
  destruct g as [[a|]|?|]; try discriminate H2.
  destruct (ecc_sig x) as [[rb sb]|] eqn:S; [|discriminate H2]. destruct (ecc_pk a) as [key|] eqn:EK; [|discriminate H2].
  apply andb_true_iff in H2 as [H2 H3]. apply andb_true_iff in H2 as [PX PY]. apply Z.eqb_eq in PX, PY.
  assert (O' : fst (verify_ecc toy x (Some a)) = Ok tt) by (destruct (verify_ecc toy x (Some a)); exact O).
  assert (P : fst (verify_ecc k x (Some a)) = Panic); [|destruct (verify_ecc k x (Some a)); exact P].
  apply verify_ecc_panic; [exact BX|].
  destruct (verify_ecc_cases toy x a BX) as [(_ & G & _)|[(_ & _ & [R|R])|(_ & e & R)]]; [|rewrite R in O'; discriminate..].
  destruct G as (key' & bits & cv & outer & body & t0 & t1 & rb' & sb' & EK' & KX & KY & PC & VO & VB & D & DB & S' & _).
  rewrite EK in EK'. injection EK' as <-. rewrite PC in H3. destruct cv; try discriminate H3.
  exists a, BP256, (be (key_x key)), (be (key_y key)), (sha2 k bits (rv_full body)), (be rb'), (be sb').
  split; [reflexivity|]. split.
  - exists key, bits, outer, body, t0, t1, rb', sb'. repeat (split; [assumption|]). auto.
  - apply K. rewrite PX, PY. unfold on_bp256. vm_compute. discriminate.
Qed.
Print Assumptions C111_verify_panics_refuted.

(** The same with the weaker half of the story: cards of the first generation only,
    and ECDSA verifications that never crash. *)
Corollary C111_no_crash : forall k r cm us c, quiet r -> Forall dumped_ok us -> accepted cm us c ->
  dc_has c Gen2 = false \/ (forall cv x y h rr ss, ecdsa k cv x y h rr ss <> None) ->
  fst (verify_file k r (Some (driver_file c))) <> Panic.
Proof.
  intros k r cm us c Q V A H E. apply C111_verify_panics_partial in E; auto.
  - destruct E as (c' & x & a & cv & px & py & h & rr & ss & _ & C & _ & G & _ & _ & _ & D). injection C as <-.
    destruct H as [H|H]; [congruence|]. now apply H in D.
  - intros c0 x E0 X. injection E0 as <-. destruct (ecc_from_dump _ _ _ _ V A X) as (? & u & ? & _ & _ & _ & _ & U & BO).
    apply ecc_length in U as (_ & U). now rewrite U.
Qed.
Print Assumptions C111_no_crash.

Example C111_example : exists us c, quiet (toy_resolver toy_root) /\ Forall dumped_ok us /\ accepted no_charmap us c /\
  dc_has c Gen1 = true /\ dc_has c Gen2 = true /\ forall cv x y h rr ss, ecdsa toy cv x y h rr ss <> None.
Proof.
  destruct toy_verified as (c & (V & A & O) & H). apply andb_true_iff in H as [H1 H2]. eexists. exists c.
  split; [|split; [exact V|]; split; [exact A|]; split; [exact H1|]; split; [exact H2|]; discriminate].
  apply C111_default_source. intros u. unfold toy_http. repeat (destruct (list_eq_dec _ _ _); [discriminate|]). discriminate.
Qed.

(** First-generation certificates are verified without a crash whatever they and the
    authority are, and not without an authority. *)
Theorem C111_rsa : forall k c,
  (forall ca, fst (verify_rsa_with_ca k c ca) <> Panic /\ (fst (verify_rsa_with_ca k c ca) = Ok tt -> ca <> None)) /\
  (forall root, fst (verify_rsa_with_root k c root) <> Panic /\ (fst (verify_rsa_with_root k c root) = Ok tt -> root <> None)).
Proof.
  intros k c. split; intros [a|]; cbn [verify_rsa_with_ca verify_rsa_with_root]; (split; [try apply verify_rsa_np; discriminate|]); discriminate.
Qed.
Print Assumptions C111_rsa.
