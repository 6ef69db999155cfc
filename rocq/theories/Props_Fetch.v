(** Properties C94 and C95: the references in the generated index against the ones the
    library finds in the same certificates. *)

From Coq Require Import Permutation Sorted.
From Verif Require Import Base DDScalar Asn1 Cert Verify FetchCerts P_Basic P_Cert Props_Cert.

(** * C94: first-generation certificates *)

Lemma recover_cases k d nb eb chr : length nb = 128%nat -> length eb = 8%nat -> length d = 194%nat ->
  let c0 := mkRsa [] (dec (be (sub d 186 8))) None [] [] d None in
  verify_rsa k c0 nb eb chr =
  if list_eq_dec Z.eq_dec (dec (be (sub d 186 8))) chr then
    match recover_gen1 k d (be nb) (be eb) with
    | Ok content => (Ok tt, rsa_filled c0 content)
    | _ => (fail, rsa_mark c0 false)
    end
  else (fail, rsa_mark c0 false).
Proof.
  intros L1 L2 L c0. unfold c0, verify_rsa. cbn [rsa_raw].
  rewrite L, L1, L2. cbn [Nat.eqb orb negb].
  destruct (list_eq_dec Z.eq_dec (dec (be (sub d 186 8))) chr); [|reflexivity]. cbn [negb].
  unfold recover_gen1. rewrite L. cbn [Nat.eqb guard bind].
  set (v := mod_exp (be (sub d 0 128)) (be eb) (be nb)). cbv zeta.
  rewrite (Z.ltb_antisym (256 ^ 128) v).
  destruct (256 ^ 128 <=? v); [reflexivity|]. cbn [negb guard bind].
  destruct (nth 0 (to_be 128 v) 0 =? 106); [|reflexivity].
  destruct (nth 127 (to_be 128 v) 0 =? 188); [|reflexivity]. cbn [andb negb guard bind].
  destruct (list_eq_dec Z.eq_dec (sub (to_be 128 v) 107 20) _); reflexivity.
Qed.

Lemma recover_no_panic k d n e : recover_gen1 k d n e <> Panic.
Proof.
  unfold recover_gen1. destruct (_ =? _)%nat; cbn [guard bind]; [|discriminate].
  destruct (_ <? _); cbn [guard bind]; [|discriminate].
  destruct (_ && _); cbn [guard bind]; [|discriminate].
  destruct (list_eq_dec _ _ _); discriminate.
Qed.

Lemma recover_length k d n e c : recover_gen1 k d n e = Ok c -> length d = 194%nat /\ length c = 164%nat.
Proof.
  unfold recover_gen1. intros R. inv_bind R. inv_bind R. inv_bind R. inv_bind R. apply Ok_inj in R. subst c.
  apply guard_ok in E. apply Nat.eqb_eq in E. split; [exact E|].
  rewrite app_length, !sub_length; [reflexivity|lia|]. rewrite to_be_length. lia.
Qed.

(** The tool recovers the content of a certificate exactly when it has 194 bytes and its
    signature is good under the key of the root (Appendix 11, 3.3); the root's
    modulus is bytes 8 to 135 of its file, the exponent the last 8 bytes. *)
Theorem C94_recovered :
  forall k key_id modulus exponent n e d content,
  hash_bytes k -> bytes_ok d -> bytes_ok modulus ->
  length key_id = 8%nat -> length modulus = 128%nat -> length exponent = 8%nat ->
  extract_erca (key_id ++ modulus ++ exponent) = Ok (n, e) ->
  recover_gen1 k d n e = Ok content <-> (length d = 194%nat /\ rsa_signed k d modulus exponent content).
Proof.
  intros k kid nb eb n e d content HK Bd Bn L0 L1 L2 E.
  unfold extract_erca in E. rewrite !app_length, L0, L1, L2 in E. cbn [Nat.add Nat.eqb guard bind] in E.
  assert (S1 : sub (kid ++ nb ++ eb) 8 128 = nb).
  { rewrite sub_app_r by lia. rewrite firstn_app, L1, Nat.sub_diag, <- L1, firstn_all. cbn [firstn]. apply app_nil_r. }
  assert (S2 : sub (kid ++ nb ++ eb) 136 8 = eb).
  { rewrite app_assoc. rewrite sub_app_r by (rewrite app_length; lia).
    rewrite <- L2. apply firstn_all. }
  rewrite S1, S2 in E. inv_bind E. apply Ok_inj in E.
  assert (En : be nb = n) by congruence. assert (Ee : be eb = e) by congruence. subst n e. clear E.
  split.
  - intros R. destruct (recover_length _ _ _ _ _ R) as [L _]. split; [exact L|].
    pose proof (recover_cases k d nb eb (dec (be (sub d 186 8))) L1 L2 L) as V. cbv zeta in V.
    rewrite R in V. destruct (list_eq_dec _ _ _) as [_|N]; [|now contradiction N].
    set (c0 := mkRsa [] (dec (be (sub d 186 8))) None [] [] d None) in *.
    destruct (verify_rsa_cases k c0 nb eb (dec (be (sub d 186 8))) HK Bd Bn)
      as [(_ & _ & _ & c & G & V2)|[(_ & V2)|(_ & _ & _ & V2)]]; cbv zeta in V2; rewrite V in V2; try discriminate V2.
    assert (Q : rsa_filled c0 content = rsa_filled c0 c) by congruence.
    assert (Lc := recover_length _ _ _ _ _ R).
    (* the content is determined by the signature *)
    clear V V2 Q. revert G R. clear - HK Bd Bn L1 L2 L. intros (cr & Bc & Lcr & Ec & Lh & Rv) R.
    apply mod_exp_recovers in Rv. unfold c0 in *. clear c0. cbn [rsa_raw] in *.
    exists cr. split; [exact Bc|]. split; [exact Lcr|].
    assert (LL : length (106 :: cr ++ sha1 k c ++ [188]) = 128%nat).
    { cbn [length]. rewrite !app_length, Lcr, Lh. reflexivity. }
    assert (BL : bytes_ok (106 :: cr ++ sha1 k c ++ [188])).
    { apply bytes_ok_cons. split; [unfold byte_ok; lia|]. rewrite !bytes_ok_app. repeat split; auto.
      constructor; [unfold byte_ok; lia|constructor]. }
    assert (T : to_be 128 (mod_exp (be (sub d 0 128)) (be eb) (be nb)) = 106 :: cr ++ sha1 k c ++ [188]).
    { rewrite Rv. now apply to_be_be. }
    assert (X : content = c).
    { unfold recover_gen1 in R. inv_bind R. inv_bind R. inv_bind R. inv_bind R. apply Ok_inj in R. subst content.
      rewrite Ec. f_equal. rewrite T. exact (sub_app_l cr _ 106 Lcr). }
    subst content. split; [exact Ec|]. split; [exact Lh|]. apply mod_exp_recovers. exact Rv.
  - intros [L G].
    pose proof (recover_cases k d nb eb (dec (be (sub d 186 8))) L1 L2 L) as V. cbv zeta in V.
    destruct (list_eq_dec _ _ _) as [_|N]; [|now contradiction N].
    set (c0 := mkRsa [] (dec (be (sub d 186 8))) None [] [] d None) in *.
    destruct G as (cr & Bc & Lcr & Ec & Lh & Rv). apply mod_exp_recovers in Rv.
    assert (LL : length (106 :: cr ++ sha1 k content ++ [188]) = 128%nat).
    { cbn [length]. rewrite !app_length, Lcr, Lh. reflexivity. }
    assert (BL : bytes_ok (106 :: cr ++ sha1 k content ++ [188])).
    { apply bytes_ok_cons. split; [unfold byte_ok; lia|]. rewrite !bytes_ok_app. repeat split; auto.
      constructor; [unfold byte_ok; lia|constructor]. }
    unfold recover_gen1. rewrite L. cbn [Nat.eqb guard bind]. rewrite Rv.
    assert (RR := be_range _ BL). rewrite LL in RR.
    rewrite (to_be_be 128 _ BL LL).
    replace (_ <? _) with true by (symmetry; apply Z.ltb_lt; change (256 ^ 128) with (256 ^ Z.of_nat 128); lia).
    cbn [guard bind].
    replace (nth 127 (106 :: cr ++ sha1 k content ++ [188]) 0) with 188.
    2: { cbn [nth]. rewrite app_nth2 by lia. rewrite app_nth2 by lia. rewrite Lcr, Lh. reflexivity. }
    cbn [nth Z.eqb Pos.eqb andb guard bind].
    assert (Q1 : sub (106 :: cr ++ sha1 k content ++ [188]) 1 106 = cr).
    { exact (sub_app_l cr _ 106 Lcr). }
    assert (Q2 : sub (106 :: cr ++ sha1 k content ++ [188]) 107 20 = sha1 k content).
    { refine (eq_trans (sub_app_r (106 :: cr) (sha1 k content ++ [188]) 107 20 _) _); [cbn [length]; lia|].
      exact (sub_app_l _ _ 20 Lh). }
    rewrite Q1, Q2, <- Ec. destruct (list_eq_dec _ _ _) as [_|N]; [reflexivity|now contradiction N].
Qed.

(** The library accepts a certificate under the root exactly when the tool recovers its
    content and the certificate names the root as its authority.  Holder and end
    of validity are then the same for both. *)
Theorem C94_recovery_is_verification :
  forall k root_data root n e d,
  unmarshal_root root_data = Ok root -> extract_erca root_data = Ok (n, e) ->
  let authority := dec (be (sub d 186 8)) in
  (forall x y, unmarshal_rsa d = Ok x -> verify_rsa_with_root k x (Some root) = (Ok tt, y) ->
     authority = root_key_id root /\
     exists content chr eov, recover_gen1 k d n e = Ok content /\
       extract_gen1_chr_eov content = Ok (chr, eov) /\
       rsa_chr y = dec chr /\ rsa_eov y = Some (mkTs eov 0) /\ rsa_valid y = Some true /\ rsa_raw y = d) /\
  (forall content, recover_gen1 k d n e = Ok content -> authority = root_key_id root ->
     exists x y, unmarshal_rsa d = Ok x /\ verify_rsa_with_root k x (Some root) = (Ok tt, y)).
Proof.
  intros k rd root n e d R E a.
  unfold unmarshal_root in R. inv_bind R. apply Ok_inj in R. subst root.
  apply guard_ok in E0. apply Nat.eqb_eq in E0.
  unfold extract_erca in E. inv_bind E. inv_bind E. apply Ok_inj in E.
  match type of E with (?p, ?q) = _ => assert (En : p = n) by congruence; assert (Ee : q = e) by congruence end.
  clear E.
  assert (L1 : length (sub rd 8 128) = 128%nat) by (apply sub_length; lia).
  assert (L2 : length (sub rd 136 8) = 8%nat) by (apply sub_length; lia).
  assert (V : length d = 194%nat -> forall root_id,
    verify_rsa_with_root k (mkRsa [] a None [] [] d None) (Some (mkRoot root_id (sub rd 8 128) (sub rd 136 8))) =
    let c0 := mkRsa [] a None [] [] d None in
    if list_eq_dec Z.eq_dec a root_id then
      match recover_gen1 k d n e with
      | Ok content => (Ok tt, rsa_filled c0 content)
      | _ => (fail, rsa_mark c0 false)
      end
    else (fail, rsa_mark c0 false)).
  { intros L i. rewrite <- En, <- Ee. exact (recover_cases k d _ _ i L1 L2 L). }
  split.
  - rename V into Vf. intros x y U V. unfold unmarshal_rsa in U. inv_bind U. apply Ok_inj in U. subst x.
    match goal with Q : guard (length d =? 194)%nat = Ok _ |- _ =>
      apply guard_ok in Q; apply Nat.eqb_eq in Q; rename Q into L end.
    fold a in V. rewrite (Vf L) in V. cbv zeta in V.
    destruct (list_eq_dec Z.eq_dec a (dec (be (sub rd 0 8)))) as [A|]; [|discriminate V].
    destruct (recover_gen1 k d n e) as [c| |] eqn:Rc; try discriminate V.
    split; [exact A|]. apply (f_equal snd) in V. cbn [snd] in V. subst y.
    exists c. do 2 eexists. split; [reflexivity|]. split; [|repeat split; reflexivity].
    unfold extract_gen1_chr_eov.
    rewrite (proj2 (recover_length _ _ _ _ _ Rc)). reflexivity.
  - intros c Rc A. assert (L := proj1 (recover_length _ _ _ _ _ Rc)).
    exists (mkRsa [] a None [] [] d None). eexists. split.
    { unfold unmarshal_rsa. rewrite L. reflexivity. }
    rewrite (V L). cbv zeta. cbn [root_key_id] in A.
    destruct (list_eq_dec Z.eq_dec a (dec (be (sub rd 0 8)))); [|contradiction]. rewrite Rc. reflexivity.
Qed.

(** A root key with exponent one, and a certificate that is its own recovered form. *)
Definition plain_root : bytes := [253; 69; 67; 32; 255; 255; 255; 1] ++ repeat 255 128 ++ [0; 0; 0; 0; 0; 0; 0; 1].
Definition plain_content (chr eov : bytes) : bytes :=
  [1] ++ [253; 69; 67; 32; 255; 255; 255; 1] ++ repeat 7 7 ++ eov ++ chr ++ repeat 9 136.
Definition plain_cert (chr eov authority : bytes) : bytes :=
  let c := plain_content chr eov in
  (106 :: firstn 106 c ++ repeat 3 20 ++ [188]) ++ skipn 106 c ++ authority.
Definition plain_hash : crypto := mkCrypto (fun _ => repeat 3 20) (fun _ _ => []) (fun _ _ _ _ _ _ => Some true).

Example C94_applies :
  let d := plain_cert [0; 0; 0; 0; 0; 0; 0; 42] [93; 0; 0; 0] [253; 69; 67; 32; 255; 255; 255; 1] in
  exists root x y, unmarshal_root plain_root = Ok root /\ unmarshal_rsa d = Ok x /\
    verify_rsa_with_root plain_hash x (Some root) = (Ok tt, y) /\ rsa_chr y = [52; 50] (* "42" *).
Proof.
  eexists. eexists. eexists. split; [vm_compute; reflexivity|]. split; [vm_compute; reflexivity|].
  split; [vm_compute; reflexivity|]. reflexivity.
Qed.

(** The tool does not look at the named authority: it lists a certificate under its
    holder although the library never accepts it. *)
Theorem C94_listed_refuted :
  exists k root_data root n e d content chr eov,
    unmarshal_root root_data = Ok root /\ extract_erca root_data = Ok (n, e) /\
    recover_gen1 k d n e = Ok content /\ extract_gen1_chr_eov content = Ok (chr, eov) /\ chr = 42 /\
    forall x, unmarshal_rsa d = Ok x -> fst (verify_rsa_with_root k x (Some root)) = fail.
Proof.
  exists plain_hash, plain_root. do 3 eexists.
  exists (plain_cert [0; 0; 0; 0; 0; 0; 0; 42] [93; 0; 0; 0] [0; 0; 0; 0; 0; 0; 0; 0]). do 3 eexists.
  split; [vm_compute; reflexivity|]. split; [vm_compute; reflexivity|]. split; [vm_compute; reflexivity|].
  split; [vm_compute; reflexivity|]. split; [reflexivity|].
  intros x U. vm_compute in U. apply Ok_inj in U. subst x. vm_compute. reflexivity.
Qed.

(** * C95: second-generation certificates *)

(** For every certificate the library can read, the references of the index are the
    ones the library gives it. *)
Theorem C95_references :
  forall d c, unmarshal_ecc d = Ok c ->
  exists car chr, extract_gen2_car d = Ok car /\ ecc_car c = dec car /\
    extract_gen2_chr d = Ok chr /\ ecc_chr c = dec chr.
Proof.
  intros d c H. unfold unmarshal_ecc in H. inv_bind H. clear E.
  unfold extract_gen2_car, extract_gen2_chr, raw_uint64, skip_raw.
  destruct (asn1_raw d) as [[outer o1]| |]; try discriminate H. cbn [bind] in H |- *.
  destruct (asn1_raw (rv_bytes outer)) as [[body after]| |]; try discriminate H. cbn [bind] in H |- *.
  unfold raw_of_length in H.
  destruct (asn1_raw (rv_bytes body)) as [[cpi r1]| |]; try discriminate H. cbn [bind] in H |- *.
  destruct (length (rv_bytes cpi) =? 1)%nat; cbn [guard bind] in H |- *; [|discriminate H].
  destruct (asn1_raw r1) as [[car r2]| |]; try discriminate H. cbn [bind] in H |- *.
  destruct (length (rv_bytes car) =? 8)%nat; cbn [guard bind] in H |- *; [|discriminate H].
  destruct (asn1_raw r2) as [[cha r3]| |]; try discriminate H. cbn [bind] in H |- *.
  destruct (length (rv_bytes cha) =? 7)%nat; cbn [guard bind] in H |- *; [|discriminate H].
  destruct (asn1_raw r3) as [[pk r4]| |]; try discriminate H. cbn [bind] in H |- *.
  destruct (unmarshal_key (rv_bytes pk)) as [key| |]; try discriminate H. cbn [bind] in H |- *.
  destruct (asn1_raw r4) as [[chr r5]| |]; try discriminate H. cbn [bind] in H |- *.
  destruct (length (rv_bytes chr) =? 8)%nat; cbn [guard bind] in H |- *; [|discriminate H].
  do 2 eexists. split; [reflexivity|].
  destruct (asn1_raw r5) as [[fr r6]| |]; try discriminate H. cbn [bind] in H.
  destruct (length (rv_bytes fr) =? 4)%nat; cbn [guard bind] in H; [|discriminate H].
  inv_bind H.
  destruct (asn1_raw r6) as [[to r7]| |]; try discriminate H. cbn [bind] in H.
  destruct (length (rv_bytes to) =? 4)%nat; cbn [guard bind] in H; [|discriminate H].
  inv_bind H.
  destruct (asn1_raw after) as [[sg r8]| |]; try discriminate H. cbn [bind] in H.
  inv_bind H. apply Ok_inj in H. subst c. cbn [ecc_car ecc_chr]. repeat split; reflexivity.
Qed.

(** The converse fails: the tool lists certificates the library cannot read, here one
    whose authorisation has six bytes instead of seven. *)
Definition short_cert (chr : bytes) : bytes :=
  tlv [127; 33]
    (tlv [127; 78]
       (tlv [95; 41] [0] ++ tlv [66] [1; 2; 3; 4; 5; 6; 7; 8] ++ tlv [95; 76] [255; 83; 77; 82; 68; 84] ++
        tlv [127; 73] (tlv [6] [43; 36; 3; 3; 2; 8; 1; 1; 7] ++ tlv [134] (4 :: repeat 1 64)) ++
        tlv [95; 32] chr ++ tlv [95; 37] [93; 0; 0; 0] ++ tlv [95; 36] [107; 0; 0; 0]) ++
     tlv [95; 55] (repeat 3 64)).

Theorem C95_readable_refuted :
  exists d car chr, (204 <= length d <= 341)%nat /\ extract_gen2_car d = Ok car /\ extract_gen2_chr d = Ok chr /\ unmarshal_ecc d = fail.
Proof.
  exists (short_cert [0; 0; 0; 0; 0; 0; 0; 42]). do 2 eexists.
  split; [vm_compute; split; repeat constructor|].
  split; [vm_compute; reflexivity|]. split; [vm_compute; reflexivity|]. vm_compute. reflexivity.
Qed.

Example C95_applies :
  exists c, unmarshal_ecc (sample_ecc [0; 0; 0; 0; 0; 0; 0; 42] [93; 0; 0; 0] [107; 0; 0; 0]
     (repeat 1 32) (repeat 2 32) (repeat 3 32) (repeat 4 32)) = Ok c /\ ecc_chr c = [52; 50].
Proof. eexists. split; [vm_compute; reflexivity|reflexivity]. Qed.
