(** A genuine card of both generations (C106): keys of 1024 bits with many small factors, so that their private exponent is
    small and the signatures can be computed here. *)

From Coq Require Import Znumtheory Zpow_facts.
From Verif Require Import Base Enums Chunks DDScalar RawTypes RawCard P_RawCard Infer.
From Verif Require Import Props_RawCard Asn1 Cert P_Cert DriverCard P_Driver Vu Verify Api P_Dump Props_Dump Props_Driver.
From Verif Require Import P_Scalar Props_Cert Props_Verify Rsa Issue Props_Issue.

Definition root_primes : list Z :=
  [2; 3; 7; 11; 29; 31; 37; 41; 43; 53; 61; 71; 73; 79; 89; 109; 157; 199; 211; 241; 281; 313; 331; 337; 379;
   401; 421; 617; 757; 911; 1009; 1201; 2017; 2161; 2311; 2521; 2861; 2971; 3169; 3361; 3433; 4159; 5281;
   5851; 6301; 6337; 7151; 7723; 8191; 8641; 9241; 9829; 11551; 12097; 15601; 16381; 16633; 19009; 19801;
   23761; 24571; 26209; 27457; 28081; 33601; 38611; 43201; 48049; 62401; 65521; 72073; 79201; 93601; 108109;
   109201; 120121; 123553; 192193; 193051; 200201; 218401; 332641; 393121; 411841; 450451; 540541; 800801].

Definition authority_primes : list Z :=
  [2; 5; 7; 19; 23; 37; 41; 53; 67; 89; 97; 109; 199; 241; 281; 313; 353; 379; 421; 541; 601; 617; 757; 1051;
   1171; 1249; 1301; 1321; 2003; 2017; 2081; 2311; 2341; 2521; 2801; 2861; 2971; 3169; 3697; 4951; 5281;
   5851; 6007; 6553; 7489; 7561; 8009; 8737; 9829; 9901; 11551; 12097; 14401; 14561; 14851; 18481; 19009;
   23761; 24571; 27457; 37441; 38611; 39313; 50051; 51481; 54601; 55441; 79201; 96097; 100801; 120121;
   140401; 200201; 218401; 257401; 270271; 300301; 332641; 393121; 411841; 450451; 600601; 786241; 800801].

(** The public exponent, and its inverse modulo all the p - 1. *)
Definition pub : bytes := to_be 8 65537.
Definition priv : Z := 35870273.

Definition pair_b (ps : list Z) : bool :=
  forallb (fun p => trial (Z.sqrt p + 1) p && ((65537 * priv - 1) mod (p - 1) =? 0)) ps &&
  (length (nodup Z.eq_dec ps) =? length ps)%nat && (2 ^ 1023 <=? product ps) && (product ps <? 2 ^ 1024).

Lemma pair_b_ok ps : pair_b ps = true -> g1_key (to_be 128 (product ps)) pub priv.
Proof.
  unfold pair_b. rewrite !andb_true_iff. intros (((H & U) & N1) & N2).
  apply Z.leb_le in N1. apply Z.ltb_lt in N2. apply Nat.eqb_eq in U. rewrite forallb_forall in H.
  assert (BN : be (to_be 128 (product ps)) = product ps).
  { rewrite be_to_be. apply Z.mod_small. change (256 ^ Z.of_nat 128) with (2 ^ 1024) in *. lia. }
  split; [apply to_be_length|]. split; [apply to_be_ok|]. rewrite BN. split; auto. split; [discriminate|]. split; [apply to_be_ok|].
  change (be pub) with 65537. exists ps.
  assert (NP : NoDup ps).
  { apply (NoDup_incl_NoDup (NoDup_nodup Z.eq_dec ps)); [lia|]. intros x X. now apply nodup_In in X. }
  split; [|split; [exact NP|split; [reflexivity|split; [lia|split; [unfold priv; lia|]]]]].
  - apply Forall_forall. intros p I. specialize (H p I). apply andb_true_iff in H as [H _]. now apply trial_prime in H.
  - apply Forall_forall. intros p I. specialize (H p I). apply andb_true_iff in H as [H1 H].
    apply trial_prime in H1. apply prime_ge_2 in H1. apply Z.eqb_eq in H.
    apply Z.mod_divide in H; [exact H|lia].
Qed.

Lemma root_pair : pair_b root_primes = true. Proof. vm_compute. reflexivity. Qed.
Lemma authority_pair : pair_b authority_primes = true. Proof. vm_compute. reflexivity. Qed.

(** An authority under the root 1, and cards of the two generations. *)
Definition authority_g1 : g1_content :=
  mkG1 [1] (to_be 8 1) (zeros 7) [255; 255; 255; 255] (to_be 8 7) (to_be 128 (product authority_primes)) pub.
Definition card_g1 : g1_content :=
  mkG1 [1] (to_be 8 7) (repeat 9 7) [107; 0; 0; 0] (to_be 8 123456) (repeat 200 128) pub.

Definition issue1_fast (k : crypto) (n d : Z) (c : g1_content) : bytes :=
  let cc := g1_bytes c in
  to_be 128 (Zpow_mod (be (0x6A :: firstn 106 cc ++ sha1 k cc ++ [0xBC])) d n) ++ skipn 106 cc ++ g1_car c.

Lemma issue1_fast_eq k n d c : 0 < n -> issue1_fast k n d c = issue1 k n d c.
Proof. intros N. unfold issue1_fast, issue1. now rewrite Zpow_mod_correct by lia. Qed.

Definition authority_raw : bytes := issue1_fast toy (product root_primes) priv authority_g1.
Definition card_raw : bytes := issue1_fast toy (product authority_primes) priv card_g1.

Definition authority_g2 : g2_content :=
  mkG2 [0] (to_be 8 1) (zeros 7) NIST521 (repeat 1 66) (repeat 2 66) (to_be 8 8) [90; 0; 0; 0] [110; 0; 0; 0].
Definition card_g2 : g2_content :=
  mkG2 [0] (to_be 8 8) (repeat 9 7) BP256 (repeat 3 32) (repeat 4 32) (to_be 8 654321) [93; 0; 0; 0] [107; 0; 0; 0].

Definition issued_files : cert_files := mkFiles (to_be 8 1 ++ to_be 128 (product root_primes) ++ pub) [] [].
Definition issued_index : cert_index := mkIndex [(dec 7, [49])] [(dec 8, [50])].
Definition issued_http (u : bytes) : res bytes :=
  if list_eq_dec Z.eq_dec u [49] then Ok authority_raw
  else if list_eq_dec Z.eq_dec u [50] then Ok (issue2 authority_g2 (repeat 5 48) (repeat 6 48))
  else fail.

Definition issued_dump : list dumped :=
  [icc_unit; ic_unit; licence_unit 5; mkDumped 0xC100 0 card_raw None; mkDumped 0xC101 2 (issue2 card_g2 (repeat 7 66) (repeat 7 66)) None].

Lemma toy_hash20 : hash20 toy.
Proof.
  intros m. split; [|apply hash_toy]. cbn [toy sha1]. rewrite map_length, firstn_length, app_length.
  change (length (zeros 20)) with 20%nat. lia.
Qed.

Lemma nodes_ok : g1_ok authority_g1 /\ g1_ok card_g1 /\ g2_ok authority_g2 /\ g2_ok card_g2.
Proof.
  unfold g1_ok, g2_ok, g1_bytes. repeat split; try apply to_be_length; rewrite ?bytes_ok_app; repeat split;
    try apply to_be_ok; apply bytes_okb_ok; vm_compute; reflexivity.
Qed.

Lemma genuine_nodes : genuine1 toy (to_be 8 1) (to_be 128 (product root_primes)) pub authority_g1 authority_raw card_g1 card_raw /\
  genuine2 toy authority_g2 (issue2 authority_g2 (repeat 5 48) (repeat 6 48)) card_g2 (issue2 card_g2 (repeat 7 66) (repeat 7 66)).
Proof.
  destruct nodes_ok as (N1 & N2 & N3 & N4).
  assert (BN : forall ps, pair_b ps = true -> be (to_be 128 (product ps)) = product ps /\ 0 < product ps).
  { intros ps H. unfold pair_b in H. apply andb_true_iff in H as [H H2]. apply andb_true_iff in H as [_ H1].
    apply Z.leb_le in H1. apply Z.ltb_lt in H2. rewrite be_to_be.
    assert (0 < 2 ^ 1023) by (apply Z.pow_pos_nonneg; lia). change (256 ^ Z.of_nat 128) with (2 ^ 1024). rewrite Z.mod_small; lia. }
  destruct (BN _ root_pair) as [R1 R2]. destruct (BN _ authority_pair) as [A1 A2]. split.
  - exists priv, priv. split; [apply pair_b_ok, root_pair|]. split; [exact N1|]. split; [reflexivity|].
    split; [unfold authority_raw; rewrite issue1_fast_eq, R1 by auto; reflexivity|].
    split; [apply pair_b_ok, authority_pair|]. split; [exact N2|]. split; [reflexivity|].
    unfold card_raw. rewrite issue1_fast_eq by auto. cbn [authority_g1 g1_n]. now rewrite A1.
  - exists (repeat 5 48), (repeat 6 48), BP384, (repeat 7 66), (repeat 7 66). split; [exact N3|].
    split; [reflexivity|]. split; [reflexivity|]. split; [apply bytes_okb_ok; reflexivity|]. split; [apply bytes_okb_ok; reflexivity|].
    split; [reflexivity|]. split; [exact N4|]. split; [reflexivity|]. split; [|reflexivity].
    split; [reflexivity|]. split; [reflexivity|]. split; [apply bytes_okb_ok; reflexivity|]. split; [apply bytes_okb_ok; reflexivity|]. reflexivity.
Qed.

Example C106_example : exists c, hash20 toy /\ sources_bytes issued_files issued_http /\ Forall dumped_ok issued_dump /\
  accepted no_charmap issued_dump c /\ dc_has c Gen1 = true /\ dc_has c Gen2 = true /\
  fst (verify_file toy (default_resolver issued_files issued_http issued_index) (Some (driver_file c))) = Ok tt.
Proof.
  assert (H : exists c, accepted no_charmap issued_dump c /\ dc_has c Gen1 && dc_has c Gen2 = true /\ Forall dumped_ok issued_dump).
  { assert (Q : forallb dumped_okb issued_dump && match unmarshal_file no_charmap (dump issued_dump) with
        | Ok (mkFile 2 None (Some c) None) => dc_has c Gen1 && dc_has c Gen2 | _ => false end = true) by (vm_compute; reflexivity).
    apply andb_true_iff in Q as [Q1 Q2]. apply dumped_okb_ok in Q1. unfold accepted.
    destruct (unmarshal_file no_charmap (dump issued_dump)) as [[t v o w]|?|]; try discriminate.
    destruct t as [|[?|[?|?|]|]|?]; try discriminate. destruct v; try discriminate. destruct o as [c|]; try discriminate.
    destruct w; try discriminate. exists c. auto. }
  destruct H as (c & A & D & V). apply andb_true_iff in D as [D1 D2]. exists c.
  assert (SB : sources_bytes issued_files issued_http).
  { split; [cbn [issued_files cf_root]; rewrite !bytes_ok_app; repeat split; apply to_be_ok|]. split; [constructor|].
    intros u d E. assert (OK : bytes_ok authority_raw /\ bytes_ok (issue2 authority_g2 (repeat 5 48) (repeat 6 48))).
    { split; apply bytes_okb_ok; vm_compute; reflexivity. }
    unfold issued_http in E. destruct OK as [OK1 OK2]. revert OK1 OK2 E.
    generalize authority_raw, (issue2 authority_g2 (repeat 5 48) (repeat 6 48)). intros b1 b2 OK1 OK2 E.
    destruct (list_eq_dec _ _ _); [|destruct (list_eq_dec _ _ _); [|discriminate]]; apply Ok_inj in E; now subst d. }
  split; [exact toy_hash20|]. split; [exact SB|]. split; [exact V|]. split; [exact A|]. split; [exact D1|]. split; [exact D2|].
  destruct genuine_nodes as [G1 G2].
  apply (C106_default_sources toy issued_files issued_http issued_index no_charmap issued_dump c toy_hash20 SB V A); intros _.
  - do 7 eexists. exists [49]. split; [exact G1|]. split; [|repeat split].
    exists [icc_unit; ic_unit; licence_unit 5]. do 2 eexists. split; [reflexivity|]. split; [reflexivity|]. split; [reflexivity|]. split; [reflexivity|].
    repeat constructor; cbn; discriminate.
  - do 4 eexists. exists [50]. split; [exact G2|]. split; [|repeat split].
    exists [icc_unit; ic_unit; licence_unit 5; mkDumped 0xC100 0 card_raw None]. do 2 eexists.
    split; [reflexivity|]. split; [reflexivity|]. split; [reflexivity|]. split; [reflexivity|]. constructor.
Qed.
