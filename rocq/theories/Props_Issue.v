(** C106, C107: certificates issued as the regulation says are accepted, and cards
    that carry them verify. *)

From Coq Require Import Znumtheory Zpow_facts.
From Verif Require Import Base Enums Chunks DDScalar RawTypes RawCard P_RawCard Infer.
From Verif Require Import Props_RawCard Asn1 Cert P_Cert DriverCard P_Driver Vu Verify Api P_Dump Props_Dump Props_Driver.
From Verif Require Import P_Scalar Props_Cert Props_Verify Rsa Issue.

(** SHA-1 gives 20 bytes. *)
Definition hash20 (k : crypto) : Prop := forall m, length (sha1 k m) = 20%nat /\ bytes_ok (sha1 k m).

Lemma hash20_bytes k : hash20 k -> hash_bytes k.
Proof. intros H m. apply H. Qed.

(** ** First generation *)

Lemma g1_length c : g1_ok c -> length (g1_bytes c) = 164%nat.
Proof. intros (L1 & L2 & L3 & L4 & L5 & L6 & L7 & _). unfold g1_bytes. rewrite !app_length, L1, L2, L3, L4, L5, L6, L7. reflexivity. Qed.

Lemma issue1_parts k n d c : g1_ok c ->
  exists sg, length sg = 128%nat /\ bytes_ok sg /\ sg = to_be 128 (be (0x6A :: firstn 106 (g1_bytes c) ++ sha1 k (g1_bytes c) ++ [0xBC]) ^ d mod n) /\
    issue1 k n d c = sg ++ skipn 106 (g1_bytes c) ++ g1_car c /\
    length (skipn 106 (g1_bytes c)) = 58%nat /\ length (g1_car c) = 8%nat /\ bytes_ok (issue1 k n d c).
Proof.
  intros G. eexists. split; [apply to_be_length|]. split; [apply to_be_ok|]. split; [reflexivity|]. split; [reflexivity|].
  pose proof (g1_length c G) as L. destruct G as (_ & L2 & _ & _ & _ & _ & _ & B).
  split; [rewrite skipn_length, L; reflexivity|]. split; auto.
  unfold issue1. rewrite !bytes_ok_app. split; [apply to_be_ok|]. split; [now apply bytes_ok_skipn|].
  unfold g1_bytes in B. now rewrite !bytes_ok_app in B.
Qed.

Lemma sub_mid (a b c : bytes) i n : length a = i -> length b = n -> sub (a ++ b ++ c) i n = b.
Proof. intros H1 <-. rewrite sub_app_r by auto. rewrite firstn_app, firstn_all, Nat.sub_diag. cbn. apply app_nil_r. Qed.

Lemma message_below k c n : hash20 k -> g1_ok c -> 2 ^ 1023 <= n ->
  0 <= be (0x6A :: firstn 106 (g1_bytes c) ++ sha1 k (g1_bytes c) ++ [0xBC]) < n.
Proof.
  intros K G N. pose proof (g1_length c G) as L. destruct G as (_ & _ & _ & _ & _ & _ & _ & B).
  set (t := firstn 106 (g1_bytes c) ++ sha1 k (g1_bytes c) ++ [0xBC]).
  assert (T : bytes_ok t).
  { unfold t. rewrite !bytes_ok_app. split; [now apply bytes_ok_firstn|]. split; [apply K|].
    constructor; [unfold byte_ok; lia|constructor]. }
  assert (TL : length t = 127%nat).
  { unfold t. rewrite !app_length, firstn_length, L, (proj1 (K _)). reflexivity. }
  change (0x6A :: t) with ([0x6A] ++ t). rewrite be_app. pose proof (be_range t T) as R. rewrite TL in *.
  change (be [0x6A]) with 106. assert (P : 2 ^ 1023 = 128 * 256 ^ Z.of_nat 127) by (vm_compute; reflexivity).
  rewrite P in N. revert R N. generalize (be t), (256 ^ Z.of_nat 127). intros. lia.
Qed.

Lemma issue1_issued k n e d c : hash20 k -> g1_ok c -> g1_key n e d ->
  issued k (issue1 k (be n) d c) (dec (be (g1_car c))) n e (g1_bytes c).
Proof.
  intros K G (LN & BN & N & NE & BE & P). destruct (issue1_parts k (be n) d c G) as (sg & LS & BS & ES & E & L1 & L2 & B).
  rewrite E. unfold issued. split; [rewrite !app_length, LS, L1, L2; reflexivity|].
  split; [intros ->; discriminate|]. split; auto. split.
  { rewrite app_assoc, sub_app_r by (rewrite app_length, LS, L1; reflexivity). rewrite <- L2 at 1. now rewrite firstn_all. }
  exists (firstn 106 (g1_bytes c)). pose proof (g1_length c G) as LG. assert (BG : bytes_ok (g1_bytes c)) by apply G.
  split; [now apply bytes_ok_firstn|]. split; [rewrite firstn_length, LG; reflexivity|]. split.
  { rewrite (sub_mid sg (skipn 106 (g1_bytes c)) (g1_car c) 128 58 LS L1). symmetry. apply firstn_skipn. }
  split; [apply K|]. right. pose proof (message_below k c (be n) K G N) as M. split; [lia|].
  rewrite sub_app_l by auto.
  assert (R : be n < 256 ^ Z.of_nat 128) by (pose proof (be_range n BN) as R; rewrite LN in R; apply R).
  assert (S0 : sub sg 0 128 = sg) by (apply sub_whole; auto). try rewrite S0. rewrite ES, be_to_be.
  rewrite (Z.mod_small (_ ^ _ mod _)).
  - symmetry. apply rsa_comes_back; auto.
  - pose proof (Z.mod_pos_bound (be (106 :: firstn 106 (g1_bytes c) ++ sha1 k (g1_bytes c) ++ [188]) ^ d) (be n) ltac:(lia)). lia.
Qed.

(** A first-generation certificate issued with a 1024-bit key is accepted by the
    parser, and verifies under the public key of its authority; afterwards it has
    the end of validity, holder and key that were certified. *)
Theorem C106_certificate : forall k c n e d, hash20 k -> g1_ok c -> g1_key n e d ->
  exists x, unmarshal_rsa (issue1 k (be n) d c) = Ok x /\ rsa_car x = dec (be (g1_car c)) /\
    verify_rsa k x n e (dec (be (g1_car c))) =
      (Ok tt, {| rsa_chr := dec (be (g1_chr c)); rsa_car := dec (be (g1_car c));
                 rsa_eov := Some (mkTs (be (g1_eov c)) 0); rsa_n := g1_n c; rsa_e := g1_e c;
                 rsa_raw := issue1 k (be n) d c; rsa_valid := Some true |}).
Proof.
  intros k c n e d K G Y. pose proof (issue1_issued k n e d c K G Y) as I.
  destruct (issue1_parts k (be n) d c G) as (sg & LS & BS & ES & E & L1 & L2 & B).
  destruct (C62_certificates_parsed _ B) as (_ & H & _).
  set (x := {| rsa_chr := []; rsa_car := dec (be (g1_car c)); rsa_eov := None; rsa_n := []; rsa_e := [];
               rsa_raw := issue1 k (be n) d c; rsa_valid := None |}).
  exists x. split; [apply H; exists sg, (skipn 106 (g1_bytes c)), (g1_car c); repeat split; auto|].
  split; [reflexivity|].
  rewrite (proj2 (verify_rsa_ok k x n e _ (rsa_filled x (g1_bytes c)) (hash20_bytes k K) B (proj1 (proj2 Y)))) by (exists (g1_bytes c); auto).
  unfold rsa_filled, x. cbn [rsa_raw]. f_equal.
  destruct G as (G1 & G2 & G3 & G4 & G5 & G6 & G7 & _). unfold g1_bytes.
  rewrite !app_assoc. f_equal.
  - do 2 f_equal. rewrite <- (app_assoc _ (g1_n c)), <- (app_assoc _ (g1_chr c)). apply sub_mid; auto. rewrite !app_length, G1, G2, G3, G4. reflexivity.
  - do 2 f_equal. rewrite <- !app_assoc. apply sub_mid; auto.
  - do 3 f_equal. rewrite <- (app_assoc _ (g1_n c)), <- (app_assoc _ (g1_chr c)), <- (app_assoc _ (g1_eov c)). apply sub_mid; auto. rewrite !app_length, G1, G2, G3. reflexivity.
  - rewrite <- (app_assoc _ (g1_n c)). apply sub_mid; auto. rewrite !app_length, G1, G2, G3, G4, G5. reflexivity.
  - rewrite <- (app_nil_r (g1_e c)) at 1. apply sub_mid; auto. rewrite !app_length, G1, G2, G3, G4, G5, G6. reflexivity.
Qed.
Print Assumptions C106_certificate.

(** ** Second generation *)

Definition tag_number (t : bytes) : Z :=
  match t with b :: nil => b mod 32 | _ :: b :: _ => b mod 128 | [] => 0 end.

Definition rv (t v : bytes) : raw_value :=
  {| rv_id := hd 0 t; rv_tag := tag_number t; rv_bytes := v; rv_full := tlv t v |}.

Definition used_tag (t : bytes) : Prop :=
  In t [[0x7F; 0x21]; [0x7F; 0x4E]; [0x5F; 0x29]; [0x42]; [0x5F; 0x4C]; [0x7F; 0x49]; [0x06]; [0x86]; [0x5F; 0x20];
        [0x5F; 0x25]; [0x5F; 0x24]; [0x5F; 0x37]].

Lemma used_tag_ok t : used_tag t -> tag_ok t (tag_number t).
Proof.
  assert (T1 : forall b, b mod 32 <> 31 -> tag_ok [b] (b mod 32)) by (intros b H; left; eauto).
  assert (T2 : forall b c, b mod 32 = 31 -> 31 <= c < 128 -> tag_ok [b; c] (c mod 128)).
  { intros b c H R. right. exists b, [c]. split; [reflexivity|]. split; auto. unfold num_ok, base128_val. cbn [length removelast last hd fold_left].
    rewrite Z.mul_0_l, Z.add_0_l, Z.mod_small by lia. repeat split; auto; lia. }
  intros H. repeat (destruct H as [<-|H]; [cbn [tag_number]; (apply T1; discriminate) || (apply T2; [reflexivity|lia])|]). contradiction.
Qed.

Lemma rv_element t v : used_tag t -> bytes_ok v -> Z.of_nat (length v) < 65536 -> element (rv t v).
Proof.
  intros T B L. unfold element. unfold rv, tlv. cbn [rv_id rv_tag rv_bytes rv_full].
  eexists _, _. split; [now apply used_tag_ok|]. split; [reflexivity|]. split; [|reflexivity].
  set (n := Z.of_nat (length v)). assert (N : 0 <= n < 65536) by lia.
  unfold len_ok. destruct (Z.ltb_spec n 128); [left; auto with zarith|]. right. split; [lia|].
  destruct (Z.ltb_spec n 256).
  - exists [n]. split; [reflexivity|]. split; [cbn; lia|]. unfold be. cbn. lia.
  - exists [n / 256; n mod 256]. split; [reflexivity|]. split; [cbn; Z.div_mod_to_equations; lia|].
    unfold be. cbn. Z.div_mod_to_equations; lia.
Qed.

Lemma tlv_length t v : (length (tlv t v) = length t + length v +
  if length v <? 128 then 1 else if length v <? 256 then 2 else 3)%nat.
Proof.
  unfold tlv. rewrite !app_length.
  destruct (Z.ltb_spec (Z.of_nat (length v)) 128), (Nat.ltb_spec (length v) 128); try lia; [cbn; lia|].
  destruct (Z.ltb_spec (Z.of_nat (length v)) 256), (Nat.ltb_spec (length v) 256); try lia; cbn; lia.
Qed.

Lemma tlv_ok t v : used_tag t -> bytes_ok v -> Z.of_nat (length v) < 65536 -> bytes_ok (tlv t v).
Proof.
  intros T B L. unfold tlv. rewrite !bytes_ok_app. split; [|split; auto].
  - repeat (destruct T as [<-|T]; [repeat constructor; unfold byte_ok; lia|]). contradiction.
  - set (n := Z.of_nat (length v)). assert (N : 0 <= n < 65536) by lia.
    destruct (Z.ltb_spec n 128); [|destruct (Z.ltb_spec n 256)]; repeat constructor; unfold byte_ok; try lia; Z.div_mod_to_equations; lia.
Qed.

Definition oid_of (cv : curve) : list Z :=
  match cv with
  | BP256 => [1; 3; 36; 3; 3; 2; 8; 1; 1; 7]
  | BP384 => [1; 3; 36; 3; 3; 2; 8; 1; 1; 11]
  | BP512 => [1; 3; 36; 3; 3; 2; 8; 1; 1; 13]
  | NIST256 => [1; 2; 840; 10045; 3; 1; 7]
  | NIST384 => [1; 3; 132; 0; 34]
  | NIST521 => [1; 3; 132; 0; 35]
  end.

Lemma domain_oid cv : oid_enc (oid_of cv) (domain cv).
Proof. apply parse_oid_iff. destruct cv; vm_compute; reflexivity. Qed.

Lemma oid_curve cv : parse_curve_oid (oid_string (oid_of cv)) = Ok (hash_bits cv, cv).
Proof. apply curves_dotted. destruct cv; cbn; auto 10. Qed.

Definition g2_key (c : g2_content) : bytes := tlv [0x06] (domain (g2_curve c)) ++ tlv [0x86] (4 :: g2_x c ++ g2_y c).

Definition g2_inside (c : g2_content) : bytes :=
  tlv [0x5F; 0x29] (g2_cpi c) ++ tlv [0x42] (g2_car c) ++ tlv [0x5F; 0x4C] (g2_cha c) ++
  tlv [0x7F; 0x49] (g2_key c) ++ tlv [0x5F; 0x20] (g2_chr c) ++ tlv [0x5F; 0x25] (g2_from c) ++ tlv [0x5F; 0x24] (g2_to c).

Ltac tag_used := solve [unfold used_tag; cbn; auto 20].

Lemma domain_ok cv : bytes_ok (domain cv).
Proof. destruct cv; repeat constructor; unfold byte_ok; lia. Qed.

Lemma g2_sizes c : g2_ok c ->
  length (g2_inside c) = Nat.add 49 (length (tlv [0x7F; 0x49] (g2_key c))) /\
  length (g2_key c) = Nat.add (length (domain (g2_curve c)) + 2) (length (tlv [0x86] (4 :: g2_x c ++ g2_y c))) /\
  length (4 :: g2_x c ++ g2_y c) = (1 + 2 * size (g2_curve c))%nat.
Proof.
  intros (L1 & L2 & L3 & L4 & L5 & L6 & L7 & L8 & _). split; [|split].
  - unfold g2_inside. rewrite !app_length. set (k := length (tlv [127; 73] (g2_key c))).
    rewrite !tlv_length, L1, L2, L3, L6, L7, L8. cbn. lia.
  - unfold g2_key. rewrite !app_length. f_equal. destruct (g2_curve c); reflexivity.
  - cbn [length]. rewrite app_length, L4, L5. lia.
Qed.

Lemma issue2_length c r s cv : g2_ok c -> length r = size cv -> length s = size cv ->
  (204 <= length (issue2 c r s) <= 341)%nat.
Proof.
  intros G LR LS. destruct (g2_sizes c G) as (E1 & E2 & E3). unfold issue2, g2_body. fold (g2_key c). fold (g2_inside c).
  rewrite (tlv_length [127; 33]), app_length, (tlv_length [127; 78]), E1, (tlv_length [127; 73]), E2, (tlv_length [134]), E3,
    (tlv_length [95; 55]), app_length, LR, LS.
  split; apply Nat.leb_le; destruct (g2_curve c), cv; reflexivity.
Qed.

Lemma issue2_ok c r s : g2_ok c -> bytes_ok r -> bytes_ok s -> (length r <= 66)%nat -> (length s <= 66)%nat ->
  Forall element [rv [0x7F; 0x21] (g2_body c ++ tlv [0x5F; 0x37] (r ++ s)); rv [0x7F; 0x4E] (g2_inside c);
    rv [0x5F; 0x29] (g2_cpi c); rv [0x42] (g2_car c); rv [0x5F; 0x4C] (g2_cha c); rv [0x7F; 0x49] (g2_key c);
    rv [0x06] (domain (g2_curve c)); rv [0x86] (4 :: g2_x c ++ g2_y c); rv [0x5F; 0x20] (g2_chr c);
    rv [0x5F; 0x25] (g2_from c); rv [0x5F; 0x24] (g2_to c); rv [0x5F; 0x37] (r ++ s)] /\ bytes_ok (issue2 c r s).
Proof.
  intros G BR BS LR LS. destruct (g2_sizes c G) as (E1 & E2 & E3).
  destruct G as (L1 & L2 & L3 & L4 & L5 & L6 & L7 & L8 & B1 & B2 & B3 & B4 & B5 & B6 & B7 & B8).
  assert (Sz : (size (g2_curve c) <= 66)%nat) by (destruct (g2_curve c); cbn; lia).
  assert (Dz : (length (domain (g2_curve c)) <= 9)%nat) by (destruct (g2_curve c); cbn; lia).
  assert (BP : bytes_ok (4 :: g2_x c ++ g2_y c)).
  { constructor; [unfold byte_ok; lia|]. now apply bytes_ok_app. }
  assert (PL : le (length (tlv [0x86] (4 :: g2_x c ++ g2_y c))) 140).
  { rewrite tlv_length, E3. cbn [length]. repeat (destruct (Nat.ltb _ _)); lia. }
  assert (BK : bytes_ok (g2_key c)).
  { unfold g2_key. apply bytes_ok_app. split; apply tlv_ok; auto using domain_ok; try tag_used; lia. }
  assert (KL : le (length (tlv [0x7F; 0x49] (g2_key c))) 160).
  { rewrite tlv_length, E2. cbn [length]. repeat (destruct (Nat.ltb _ _)); lia. }
  assert (BI : bytes_ok (g2_inside c)).
  { unfold g2_inside. rewrite !bytes_ok_app. repeat split; apply tlv_ok; auto; try tag_used; lia. }
  assert (IL : (length (g2_body c) <= 220)%nat).
  { unfold g2_body. fold (g2_key c). fold (g2_inside c). rewrite tlv_length, E1. cbn [length]. repeat (destruct (Nat.ltb _ _)); lia. }
  assert (BB : bytes_ok (g2_body c)).
  { unfold g2_body. fold (g2_key c). fold (g2_inside c). apply tlv_ok; auto; [tag_used|lia]. }
  assert (BRS : bytes_ok (r ++ s)) by now apply bytes_ok_app.
  assert (RS : (length (r ++ s) <= 132)%nat) by (rewrite app_length; lia).
  assert (SL : le (length (tlv [0x5F; 0x37] (r ++ s))) 140).
  { rewrite tlv_length. cbn [length]. repeat (destruct (Nat.ltb _ _)); lia. }
  assert (BT : bytes_ok (g2_body c ++ tlv [0x5F; 0x37] (r ++ s))).
  { apply bytes_ok_app. split; auto. apply tlv_ok; auto; [tag_used|lia]. }
  assert (TL : le (length (g2_body c ++ tlv [0x5F; 0x37] (r ++ s))) 360) by (rewrite app_length; lia).
  split.
  - repeat (constructor; [apply rv_element; [tag_used|auto using domain_ok|lia]|]). constructor.
  - unfold issue2. apply tlv_ok; auto; [tag_used|lia].
Qed.

(** The message of an issued certificate. *)
Definition g2_cert (c : g2_content) (r s : bytes) (valid : option bool) : ecc_cert :=
  {| ecc_cpi := be (g2_cpi c); ecc_car := dec (be (g2_car c)); ecc_cha := g2_cha c;
     ecc_pk := Some {| key_oid := oid_string (oid_of (g2_curve c)); key_x := g2_x c; key_y := g2_y c |};
     ecc_chr := dec (be (g2_chr c)); ecc_from := Some (mkTs (be (g2_from c)) 0); ecc_to := Some (mkTs (be (g2_to c)) 0);
     ecc_sig := Some (r, s); ecc_valid := valid; ecc_raw := issue2 c r s |}.

Lemma issue2_parsed c r s cv : g2_ok c -> length r = size cv -> length s = size cv -> bytes_ok r -> bytes_ok s ->
  unmarshal_ecc (issue2 c r s) = Ok (g2_cert c r s None).
Proof.
  intros G LR LS BR BS. pose proof (issue2_length c r s cv G LR LS) as L.
  assert (Sz : (size cv <= 66)%nat) by (destruct cv; cbn; lia).
  destruct (issue2_ok c r s G BR BS ltac:(lia) ltac:(lia)) as [El B].
  apply (C62_certificates_parsed _ B). split; auto.
  unfold ecc_layout. do 12 eexists. exists (oid_of (g2_curve c)), (g2_x c), (g2_y c), r, s, [], [], [], [].
  split; [exact El|]. clear El. unfold rv; cbn [rv_bytes rv_full rv_id hd].
  destruct G as (L1 & L2 & L3 & L4 & L5 & L6 & L7 & L8 & _). rewrite !app_nil_r.
  split; [reflexivity|]. split; [reflexivity|]. split; [reflexivity|]. split; [reflexivity|].
  do 6 (split; [assumption|]). split; [reflexivity|]. split; [apply domain_oid|]. split; [reflexivity|].
  split; [congruence|]. split; [reflexivity|]. split; [congruence|]. reflexivity.
Qed.

(** A second-generation certificate, for a key and under an authority on any of
    the six curves, is accepted by the parser with exactly the content that was
    certified, and verifies under the public key in the authority's certificate. *)
Theorem C107_certificate : forall k c r s a ra sa cva, g2_ok c -> g2_ok a ->
  signs k (g2_curve a) (g2_x a) (g2_y a) c r s ->
  length ra = size cva -> length sa = size cva -> bytes_ok ra -> bytes_ok sa ->
  exists x ca, unmarshal_ecc (issue2 c r s) = Ok x /\ unmarshal_ecc (issue2 a ra sa) = Ok ca /\
    x = g2_cert c r s None /\ verify_ecc k x (Some ca) = (Ok tt, g2_cert c r s (Some true)).
Proof.
  intros k c r s a ra sa cva G GA (LR & LS & BR & BS & V) LRA LSA BRA BSA.
  exists (g2_cert c r s None), (g2_cert a ra sa None).
  split; [now apply (issue2_parsed c r s (g2_curve a))|]. split; [now apply (issue2_parsed a ra sa cva)|]. split; [reflexivity|].
  assert (Sz : (1 <= size (g2_curve a) <= 66)%nat) by (destruct (g2_curve a); cbn; lia).
  destruct (issue2_ok c r s G BR BS ltac:(lia) ltac:(lia)) as [El B].
  inversion El as [|? ? E1 El1]; subst. inversion El1 as [|? ? E2 El2]; subst. clear El El1 El2.
  pose proof (issue2_length c r s (g2_curve a) G LR LS) as L.
  destruct GA as (_ & _ & _ & LX & LY & _).
  assert (SG : ecc_signed k (g2_cert c r s None) (g2_cert a ra sa None)).
  { unfold ecc_signed. cbn [g2_cert ecc_pk ecc_raw ecc_sig]. eexists _, (hash_bits (g2_curve a)), (g2_curve a).
    exists (rv [0x7F; 0x21] (g2_body c ++ tlv [0x5F; 0x37] (r ++ s))), (rv [0x7F; 0x4E] (g2_inside c)), [], (tlv [0x5F; 0x37] (r ++ s)), r, s.
    split; [reflexivity|]. cbn [key_x key_y key_oid]. split; [intros X; rewrite X in LX; cbn in LX; lia|].
    split; [intros X; rewrite X in LY; cbn in LY; lia|]. split; [apply oid_curve|]. split; [exact E1|]. split; [exact E2|].
    unfold rv; cbn [rv_full rv_bytes]. rewrite app_nil_r. repeat split; auto. }
  destruct (verify_ecc_cases k (g2_cert c r s None) (g2_cert a ra sa None) B) as [(_ & _ & R)|[(_ & N & _)|(N & _)]]; [exact R|contradiction|].
  exfalso. apply N. destruct SG as (key & bits & cv & outer & body & t0 & t1 & r' & s' & K1 & K2 & K3 & K4 & K5 & K6 & K7 & K8 & _).
  unfold ecc_attemptable. split; [exact L|]. split; [exists key; rewrite K4; auto|]. eauto 10.
Qed.
Print Assumptions C107_certificate.

(** ** Whole cards *)

(** The chain of the first generation: the root with the name [id] and the key [n],
    [e] certified the authority [A], and that certified the card [C]; [ra] and [rc]
    are their certificates. *)
Definition genuine1 (k : crypto) (id n e : bytes) (A : g1_content) (ra : bytes) (C : g1_content) (rc : bytes) : Prop :=
  exists d da, g1_key n e d /\ g1_ok A /\ g1_car A = id /\ ra = issue1 k (be n) d A /\
    g1_key (g1_n A) (g1_e A) da /\ g1_ok C /\ g1_car C = g1_chr A /\ rc = issue1 k (be (g1_n A)) da C.

(** The part of the chain of the second generation that the program looks at: the
    authority [A] certified the card [C]. *)
Definition genuine2 (k : crypto) (A : g2_content) (ra : bytes) (C : g2_content) (rc : bytes) : Prop :=
  exists qa sa cva r s, g2_ok A /\ length qa = size cva /\ length sa = size cva /\ bytes_ok qa /\ bytes_ok sa /\
    ra = issue2 A qa sa /\ g2_ok C /\ g2_car C = g2_chr A /\ signs k (g2_curve A) (g2_x A) (g2_y A) C r s /\ rc = issue2 C r s.

(** [v] is the last file [fid] in a dump, and of the given generation. *)
Definition last_file (us : list dumped) (fid : Z) (gen2 : bool) (v : bytes) : Prop :=
  exists a u b, us = a ++ u :: b /\ u_fid u = fid /\ u_gen2 u = gen2 /\ u_val u = v /\ Forall (fun w => u_fid w <> fid) b.

Lemma field_fid fid g s : In s [S_card_cert; S2_sign_cert] -> field_of fid g = Some s ->
  fid = match s with S_card_cert => 0xC100 | _ => 0xC101 end.
Proof.
  intros I H. unfold field_of in H. destruct (find _ fields_table) as [[[f s1] s2]|] eqn:E; [|discriminate].
  apply find_some in E as [E Q]. cbn [fst] in Q. apply Z.eqb_eq in Q. subst f.
  repeat (destruct E as [E|E]; [injection E as <- <- <-; destruct I as [<-|[<-|[]]]; destruct g; try discriminate H; reflexivity|]). contradiction.
Qed.

Lemma last_slot cm us os fid g v s : Forall2 (gives cm) us os -> last_file us fid g v -> field_of fid g = Some s ->
  In s [S_card_cert; S2_sign_cert] ->
  exists x sg, unmarshal_content cm s v = Ok x /\ slot_of_card (card_of os) s = Some (x, sg).
Proof.
  intros G (a & u & b & E & Ef & Eg & Ev & N) Hf I. destruct (card_last cm us os s u a b G E) as (x & X & _ & Y).
  - unfold u_field. now rewrite Ef, Eg.
  - unfold none_for. rewrite Forall_forall in *. intros w W Q. apply (N w W). unfold u_field in Q.
    pose proof (field_fid _ _ _ I Q). pose proof (field_fid _ _ _ I Hf). congruence.
  - exists x, (u_signature u). now rewrite <- Ev.
Qed.

(** A downloaded driver card whose certificates were issued as Appendix 11 says is
    verified with success, when the source of certificates has those of the
    authorities that issued them. *)
Theorem C106_genuine_card : forall k r cm us c, hash20 k -> answers_bytes r -> Forall dumped_ok us -> accepted cm us c ->
  (dc_has c Gen1 = true -> exists id n e A ra C rc x, genuine1 k id n e A ra C rc /\ last_file us 0xC100 false rc /\
     get_root r = Ok (Some {| root_key_id := dec (be id); root_n := n; root_e := e |}) /\
     unmarshal_rsa ra = Ok x /\ get_rsa r (dec (be (g1_chr A))) = Ok (Some x)) ->
  (dc_has c Gen2 = true -> exists A ra C rc x, genuine2 k A ra C rc /\ last_file us 0xC101 true rc /\
     unmarshal_ecc ra = Ok x /\ get_ecc r (dec (be (g2_chr A))) = Ok (Some x)) ->
  fst (verify_file k r (Some (driver_file c))) = Ok tt.
Proof.
  intros k r cm us c K R V A H1 H2. destruct (C54_authentic k r cm us c (hash20_bytes k K) R V A) as [E _]. apply E. clear E.
  assert (Q := A). apply accepted_iff in Q as (os & _ & _ & G & Ec); auto. split; intros P.
  - destruct (H1 P) as (id & n & e & CA & ra & C & rc & x & (d & da & Y & GA & IA & -> & YA & GC & IC & ->) & L & RT & U & RA).
    destruct (last_slot cm us os _ _ _ S_card_cert G L eq_refl ltac:(cbn; auto)) as (z & sg & Uz & Sz).
    exists z. split; [unfold card_certificate; rewrite Ec, Sz; reflexivity|].
    change (unmarshal_rsa (issue1 k (be (g1_n CA)) da C) = Ok z) in Uz.
    destruct (C106_certificate k CA n e d K GA Y) as (x' & U' & _). rewrite U in U'. apply Ok_inj in U'. subst x'.
    destruct (C106_certificate k C _ _ da K GC YA) as (z' & U' & CZ & _). rewrite Uz in U'. apply Ok_inj in U'. subst z'.
    exists (dec (be (g1_chr CA))), (g1_n CA), (g1_e CA), (g1_bytes C). split.
    + exists x. rewrite CZ, IC. split; [exact RA|]. right.
      unfold unmarshal_rsa in U. apply bind_ok in U as (? & _ & U). apply Ok_inj in U. subst x. cbn [rsa_n rsa_e rsa_raw]. split; [auto|].
      eexists _, (g1_bytes CA). split; [exact RT|]. cbn [root_key_id root_n root_e]. rewrite <- IA. split; [now apply issue1_issued|].
      destruct GA as (G1 & G2 & G3 & G4 & G5 & G6 & G7 & _). unfold g1_bytes. rewrite !app_assoc. split; [|split].
      * do 2 f_equal. symmetry. rewrite <- (app_assoc _ (g1_n CA)), <- (app_assoc _ (g1_chr CA)). apply sub_mid; auto. rewrite !app_length, G1, G2, G3, G4. reflexivity.
      * symmetry. rewrite <- (app_assoc _ (g1_n CA)). apply sub_mid; auto. rewrite !app_length, G1, G2, G3, G4, G5. reflexivity.
      * symmetry. rewrite <- (app_nil_r (g1_e CA)) at 1. apply sub_mid; auto. rewrite !app_length, G1, G2, G3, G4, G5, G6. reflexivity.
    + unfold unmarshal_rsa in Uz. apply bind_ok in Uz as (? & _ & Uz). apply Ok_inj in Uz. subst z. cbn [rsa_raw].
      rewrite <- IC. now apply issue1_issued.
  - destruct (H2 P) as (CA & ra & C & rc & x & (qa & sa & cva & q & s & GA & L1 & L2 & B1 & B2 & -> & GC & IC & SG & ->) & L & U & RA).
    destruct (last_slot cm us os _ _ _ S2_sign_cert G L eq_refl ltac:(cbn; auto)) as (z & sg & Uz & Sz).
    exists z. split; [unfold card_sign_certificate; rewrite Ec, Sz; reflexivity|].
    change (unmarshal_ecc (issue2 C q s) = Ok z) in Uz.
    destruct (C107_certificate k C q s CA qa sa cva) as (z' & x' & Uz' & U' & Ez & VF); auto.
    rewrite U in U'. apply Ok_inj in U'. subst x'. rewrite Uz in Uz'. apply Ok_inj in Uz'. subst z'.
    exists x. split; [rewrite Ez; cbn [g2_cert ecc_car]; now rewrite IC|].
    assert (BZ : bytes_ok (ecc_raw z)).
    { rewrite Ez. cbn [g2_cert ecc_raw]. destruct SG as (LR & LS & BR & BS & _).
      assert (Si : (size (g2_curve CA) <= 66)%nat) by (destruct (g2_curve CA); cbn; lia).
      now apply (issue2_ok C q s GC BR BS ltac:(lia) ltac:(lia)). }
    destruct (verify_ecc_cases k z x BZ) as [(_ & S' & _)|[(_ & _ & [W|W])|(_ & e & W)]]; auto; rewrite VF in W; discriminate.
Qed.
Print Assumptions C106_genuine_card.

(** The same with the default sources: the root in the library, and the authorities'
    certificates on the site, at the addresses in the index. *)
Theorem C106_default_sources : forall k fs http ix cm us c, hash20 k -> sources_bytes fs http ->
  Forall dumped_ok us -> accepted cm us c ->
  (dc_has c Gen1 = true -> exists id n e A ra C rc u, genuine1 k id n e A ra C rc /\ last_file us 0xC100 false rc /\
     cf_root fs = id ++ n ++ e /\ length e = 8%nat /\
     url_of (ix_g1 ix) (dec (be (g1_chr A))) = Some u /\ http u = Ok ra) ->
  (dc_has c Gen2 = true -> exists A ra C rc u, genuine2 k A ra C rc /\ last_file us 0xC101 true rc /\
     url_of (ix_g2 ix) (dec (be (g2_chr A))) = Some u /\ http u = Ok ra) ->
  fst (verify_file k (default_resolver fs http ix) (Some (driver_file c))) = Ok tt.
Proof.
  intros k fs http ix cm us c K SB V A H1 H2. apply (C106_genuine_card k _ cm us c K (default_bytes fs http ix SB) V A).
  - intros P. destruct (H1 P) as (id & n & e & CA & ra & C & rc & u & GN & L & RT & LE & UX & HU). exists id, n, e, CA, ra, C, rc.
    assert (Q := GN). destruct Q as (d & da & Y & GA & IA & -> & YA & GC & IC & _).
    destruct (C106_certificate k CA n e d K GA Y) as (x & U & _). exists x. split; auto. split; auto.
    destruct GA as (_ & G2 & _ & _ & G5 & _ & _ & BG).
    assert (BC : bytes_ok (g1_chr CA)) by (unfold g1_bytes in BG; rewrite !bytes_ok_app in BG; apply BG).
    destruct (C67_embedded_partial fs http ix (be (g1_chr CA)) (proj1 (be_range _ BC))) as (E1 & _ & E3).
    split; [|split; auto].
    + apply E3. destruct (C62_certificates_parsed (cf_root fs)) as (W & _); [apply SB|]. apply W. exists id, n, e.
      rewrite RT. repeat split; auto; [rewrite <- IA; auto|apply Y].
    + rewrite E1. cbn [client get_rsa first_success]. rewrite UX, HU. cbn [bind]. unfold some_res. rewrite U. reflexivity.
  - intros P. destruct (H2 P) as (CA & ra & C & rc & u & GN & L & UX & HU). exists CA, ra, C, rc.
    assert (Q := GN). destruct Q as (qa & sa & cva & q & s & GA & L1 & L2 & B1 & B2 & -> & GC & IC & SG & _).
    pose proof (issue2_parsed CA qa sa cva GA L1 L2 B1 B2) as U. eexists. split; auto. split; auto. split; [exact U|].
    assert (BC : bytes_ok (g2_chr CA)) by apply GA.
    destruct (C67_embedded_partial fs http ix (be (g2_chr CA)) (proj1 (be_range _ BC))) as (_ & E2 & _).
    rewrite E2. cbn [client get_ecc first_success]. rewrite UX, HU. cbn [bind]. unfold some_res. rewrite U. reflexivity.
Qed.
Print Assumptions C106_default_sources.
