(** C144: whether the key that verified a card is the one of the authority it names. *)

From Verif Require Import Base Enums DDScalar P_Scalar Asn1 Cert P_Cert Props_Cert Verify DriverCard Api P_Dump P_Driver
  Props_RawCard Props_Dump Props_Driver Props_Verify.

(** First generation: the authority has the name that is at the end of the card's
    certificate.  Either the source gave a certificate with a key, whose holder
    reference is that name, or one without, and then it is the name that the root
    signed with the key; and that certificate names the root. *)
Theorem C144_first_partial : forall k r cm us c, hash_bytes k -> answers_bytes r -> Forall dumped_ok us -> accepted cm us c ->
  fst (verify_file k r (Some (driver_file c))) = Ok tt -> dc_has c Gen1 = true ->
  exists x a n e content, card_certificate c = Some x /\ rsa_car x = dec (be (sub (rsa_raw x) 186 8)) /\
    get_rsa r (rsa_car x) = Ok (Some a) /\ issued k (rsa_raw x) (rsa_car x) n e content /\
    ((rsa_chr a = rsa_car x /\ rsa_n a = n /\ rsa_e a = e) \/
     exists root ct, get_root r = Ok (Some root) /\ dec (be (sub (rsa_raw a) 186 8)) = root_key_id root /\
       issued k (rsa_raw a) (root_key_id root) (root_n root) (root_e root) ct /\
       dec (be (sub ct 20 8)) = rsa_car x /\ sub ct 28 128 = n /\ sub ct 156 8 = e).
Proof.
  intros k r cm us c HK R V A O P. apply (C54_authentic k r cm us c HK R V A) in O as [O _].
  destruct (O P) as (x & X & name & n & e & ct & (a & GA & H) & IS).
  destruct (rsa_from_dump cm us c x V A X) as (? & u & ? & _ & _ & _ & _ & Q & CAR & _). rewrite <- Q in CAR.
  assert (N : name = rsa_car x) by (destruct IS as (_ & _ & _ & N & _); congruence). subst name.
  exists x, a, n, e, ct. split; [exact X|]. split; [exact CAR|]. split; [exact GA|]. split; [exact IS|].
  destruct H as [(_ & _ & N & -> & ->)|(_ & root & ct' & RT & IA & N & -> & ->)]; [left; auto|].
  right. exists root, ct'. split; [exact RT|]. split; [symmetry; apply IA|]. auto.
Qed.
Print Assumptions C144_first_partial.

(** Second generation: of the certificate that the source gives only the key counts.
    Whatever else it says, its name included, the verdict is the same. *)
Theorem C144_name_ignored : forall k r r' c,
  (forall car, get_rsa r' car = get_rsa r car) -> get_root r' = get_root r ->
  (forall x, card_sign_certificate c = Some x -> exists a a', get_ecc r (ecc_car x) = Ok (Some a) /\
     get_ecc r' (ecc_car x) = Ok (Some a') /\ ecc_pk a' = ecc_pk a) ->
  fst (verify_file k r' (Some (driver_file c))) = fst (verify_file k r (Some (driver_file c))).
Proof.
  intros k r r' c G1 GR G2. rewrite !verify_driver_file, !verify_driver_fst.
  assert (E1 : fst (verify_gen1 k (Some r') c) = fst (verify_gen1 k (Some r) c)).
  { unfold verify_gen1. destruct (card_certificate c) as [x|]; auto.
    assert (O : obtain_rsa_ca k (Some r') c x = obtain_rsa_ca k (Some r) c x) by (unfold obtain_rsa_ca; now rewrite G1, GR).
    now rewrite O. }
  assert (E2 : fst (verify_gen2 k (Some r') c) = fst (verify_gen2 k (Some r) c)).
  { unfold verify_gen2. destruct (card_sign_certificate c) as [x|]; auto. cbn [obtain_ecc_ca].
    destruct (G2 x eq_refl) as (a & a' & A & A' & PK). rewrite A, A'.
    assert (V : verify_ecc k x (Some a') = verify_ecc k x (Some a)) by (unfold verify_ecc, ecc_prepare; now rewrite PK).
    rewrite V. destruct (verify_ecc k x (Some a)). reflexivity. }
  now rewrite E1, E2.
Qed.
Print Assumptions C144_name_ignored.

(** Both generations have cards that pass with another authority than the one named.
    - The second-generation certificate of the card of Props_Verify names the authority
      72623859790382856; the source answers with the certificate of 42, which passes.
    - The content that the root signed for its authority says that 7 signed it; the
      end of the certificate, which nobody signed, says 1, and that is what counts. *)
Theorem C144_named_refuted :
  (exists k r us c x a, verified k r us c /\ card_sign_certificate c = Some x /\ get_ecc r (ecc_car x) = Ok (Some a) /\
     ecc_chr a <> ecc_car x) /\
  (exists k raw name n e content, issued k raw name n e content /\ dec (be (sub content 1 8)) <> name).
Proof.
  split.
  - assert (H : exists c, verified toy (toy_resolver toy_root) (toy_dump [0; 0; 0; 1] [0; 0; 0; 1] 1) c /\
      match card_sign_certificate c with
      | Some x => match get_ecc (toy_resolver toy_root) (ecc_car x) with
                  | Ok (Some a) => negb (same_bytes (ecc_chr a) (ecc_car x))
                  | _ => false end
      | None => false end = true) by (apply verified_b_ok; vm_compute; reflexivity).
    destruct H as (c & W & H). exists toy, (toy_resolver toy_root), (toy_dump [0; 0; 0; 1] [0; 0; 0; 1] 1), c.
    destruct (card_sign_certificate c) as [x|]; [|discriminate H].
    destruct (get_ecc (toy_resolver toy_root) (ecc_car x)) as [[a|]|?|] eqn:G; try discriminate H.
    exists x, a. split; [exact W|]. split; [reflexivity|]. split; [exact G|].
    intros Q. rewrite Q in H. unfold same_bytes in H. destruct (list_eq_dec Z.eq_dec (ecc_car x) (ecc_car x)); [discriminate H|contradiction].
  - exists toy, (gen1_certificate 1 7 [255; 255; 255; 255]), (dec 1), toy_key, (to_be 8 1), (toy_content 7 [255; 255; 255; 255]).
    split; [|vm_compute; intros Q; discriminate Q].
    split; [vm_compute; reflexivity|]. split; [vm_compute; discriminate|]. split; [vm_compute; discriminate|]. split; [vm_compute; reflexivity|].
    exists (firstn 106 (toy_content 7 [255; 255; 255; 255])).
    split; [apply bytes_okb_ok; vm_compute; reflexivity|]. split; [vm_compute; reflexivity|]. split; [vm_compute; reflexivity|].
    split; [vm_compute; reflexivity|]. right. split; [vm_compute; discriminate|vm_compute; reflexivity].
Qed.
Print Assumptions C144_named_refuted.

(** The hypotheses of the first theorem hold of that card; those of the second with a
    source that answers with other names. *)
Definition renamed (r : resolver) : resolver :=
  mkResolver (get_root r) (get_rsa r)
    (fun car => match get_ecc r car with
                | Ok (Some a) => Ok (Some (mkEcc 0 [1] [2] (ecc_pk a) [3] None None None None []))
                | o => o end).

Example C144_example : hash_bytes toy /\ answers_bytes (toy_resolver toy_root) /\
  (exists us c x a, verified toy (toy_resolver toy_root) us c /\ dc_has c Gen1 = true /\
     card_sign_certificate c = Some x /\ get_ecc (toy_resolver toy_root) (ecc_car x) = Ok (Some a) /\ ecc_pk a <> None) /\
  forall car a, get_ecc (toy_resolver toy_root) car = Ok (Some a) ->
    exists a', get_ecc (renamed (toy_resolver toy_root)) car = Ok (Some a') /\ ecc_pk a' = ecc_pk a /\ ecc_chr a' = [3].
Proof.
  split; [exact hash_toy|]. split; [apply default_bytes, toy_sources, toy_root_ok|]. split.
  - assert (H : exists c, verified toy (toy_resolver toy_root) (toy_dump [0; 0; 0; 1] [0; 0; 0; 1] 1) c /\
      (dc_has c Gen1 && match card_sign_certificate c with
      | Some x => match get_ecc (toy_resolver toy_root) (ecc_car x) with
                  | Ok (Some a) => match ecc_pk a with Some _ => true | None => false end
                  | _ => false end
      | None => false end) = true) by (apply verified_b_ok; vm_compute; reflexivity).
    destruct H as (c & W & H). apply andb_true_iff in H as [H1 H]. exists (toy_dump [0; 0; 0; 1] [0; 0; 0; 1] 1), c.
    destruct (card_sign_certificate c) as [x|]; [|discriminate H].
    destruct (get_ecc (toy_resolver toy_root) (ecc_car x)) as [[a|]|?|] eqn:G; try discriminate H.
    exists x, a. split; [exact W|]. split; [exact H1|]. split; [reflexivity|]. split; [exact G|].
    intros Q. rewrite Q in H. discriminate H.
  - intros car a G. unfold renamed. cbn [get_ecc]. rewrite G. eexists. split; [reflexivity|]. split; reflexivity.
Qed.
