(** C134: the work of a verification. *)

From Verif Require Import Base Enums Chunks DDScalar RawTypes RawCard Infer Cert P_Cert DriverCard P_Driver Vu Verify Api P_Dump.
From Verif Require Import Props_RawCard Props_Dump Props_Driver Props_Cert Props_Verify Work.

(** ** Powers *)

Lemma reduce_mul m a b : reduce m (reduce m a * b) = reduce m (a * b).
Proof. unfold reduce. destruct (Z.eqb_spec m 0); [reflexivity|]. now rewrite Z.mul_mod_idemp_l. Qed.
Lemma reduce_square m a : reduce m (reduce m a * reduce m a) = reduce m (a * a).
Proof. rewrite reduce_mul. rewrite Z.mul_comm, reduce_mul. reflexivity. Qed.

Lemma power_value m x e : fst (power m x e) = reduce m (x ^ Zpos e).
Proof.
  induction e as [p IH|p IH|]; cbn [power].
  - destruct (power m x p) as [z l]. cbn [fst] in *. subst z. rewrite reduce_square, reduce_mul. f_equal.
    rewrite Pos2Z.inj_xI. rewrite Z.pow_add_r, Z.pow_1_r by lia. f_equal. rewrite Z.mul_comm with (n := 2). rewrite Z.pow_mul_r by lia. now rewrite Z.pow_2_r.
  - destruct (power m x p) as [z l]. cbn [fst] in *. subst z. rewrite reduce_square. f_equal.
    rewrite Pos2Z.inj_xO. rewrite Z.mul_comm with (n := 2). rewrite Z.pow_mul_r by lia. now rewrite Z.pow_2_r.
  - cbn [fst]. now rewrite Z.pow_1_r.
Qed.

Lemma power_z_value m x e : 0 <= e -> fst (power_z m x e) = mod_exp x e m.
Proof. intros E. unfold mod_exp. destruct e as [|p|p]; [|apply power_value|lia]. reflexivity. Qed.

Lemma power_count m x e : (length (snd (power m x e)) + 2 <= 2 * Pos.size_nat e)%nat.
Proof.
  induction e as [p IH|p IH|]; cbn [power Pos.size_nat]; [| |cbn; lia];
    destruct (power m x p) as [z l]; cbn [snd] in *; rewrite app_length; cbn [length]; lia.
Qed.

Lemma size_bound e n : Zpos e < 2 ^ Z.of_nat n -> (Pos.size_nat e <= n)%nat.
Proof.
  revert n. induction e as [p IH|p IH|]; intros n H; cbn [Pos.size_nat].
  - destruct n as [|n]; [cbn in H; lia|]. apply le_n_S, IH. rewrite Nat2Z.inj_succ, Z.pow_succ_r in H by lia. lia.
  - destruct n as [|n]; [cbn in H; lia|]. apply le_n_S, IH. rewrite Nat2Z.inj_succ, Z.pow_succ_r in H by lia. lia.
  - destruct n; [cbn in H; lia|lia].
Qed.

Lemma power_products m x e B : 0 < m <= B -> 0 <= x < B -> 0 <= fst (power m x e) < m /\ Forall (fun v => 0 <= v < B * B) (snd (power m x e)).
Proof.
  intros M X. assert (R : forall v, 0 <= reduce m v < m).
  { intros v. unfold reduce. destruct (Z.eqb_spec m 0); [lia|]. apply Z.mod_pos_bound. lia. }
  induction e as [p IH|p IH|]; cbn [power].
  - destruct (power m x p) as [z l]. cbn [fst snd] in *. destruct IH as [Z0 L]. split; [apply R|]. apply Forall_app. split; [exact L|].
    pose proof (R (z * z)). repeat constructor; nia.
  - destruct (power m x p) as [z l]. cbn [fst snd] in *. destruct IH as [Z0 L]. split; [apply R|]. apply Forall_app. split; [exact L|].
    repeat constructor; nia.
  - cbn [fst snd]. split; [apply R|constructor].
Qed.

(** Without a modulus the last square is the whole power. *)
Lemma power_whole x p : In (x ^ Zpos (xO p)) (snd (power 0 x (xO p))).
Proof.
  cbn [power]. pose proof (power_value 0 x p) as E. destruct (power 0 x p) as [z l]. cbn [fst] in E. unfold reduce in E. cbn [Z.eqb] in E. cbn [snd].
  apply in_app_iff. right. left. subst z. rewrite Pos2Z.inj_xO, Z.mul_comm with (n := 2). rewrite Z.pow_mul_r by lia. now rewrite Z.pow_2_r.
Qed.

(** ** Keys of the default source *)

Lemma be_small b : bytes_ok b -> 0 <= be b < 256 ^ Z.of_nat (length b).
Proof. intros B. now apply be_range. Qed.

Lemma calls_one c n e chr : calls_rsa c n e chr = [] \/
  (calls_rsa c n e chr = [(be (sub (rsa_raw c) 0 128), be e, be n)] /\ length (rsa_raw c) = 194%nat).
Proof.
  unfold calls_rsa. destruct (length (rsa_raw c) =? 194)%nat eqn:L; [|now left]. cbn [negb]. destruct (_ || _); [now left|].
  destruct (negb _); [now left|]. right. split; [reflexivity|]. now apply Nat.eqb_eq in L.
Qed.

(** The work of one call: at most 126 products, of numbers below 256^128. *)
Definition small_work (x : call) : Prop :=
  let '(b, e, m) := x in
  fst (power_z m b e) = mod_exp b e m /\
  (length (snd (power_z m b e)) <= 126)%nat /\ Forall (fun v => 0 <= v < 256 ^ 256) (snd (power_z m b e)).

Lemma small_call raw n e : bytes_ok raw -> bytes_ok n -> bytes_ok e -> length raw = 194%nat -> (length n <= 128)%nat -> (length e <= 8)%nat ->
  be n <> 0 -> small_work (be (sub raw 0 128), be e, be n).
Proof.
  intros BR BN BE LR LN LE N. cbn [small_work].
  assert (S0 : bytes_ok (sub raw 0 128)) by now apply bytes_ok_sub.
  pose proof (be_small _ S0) as X. rewrite sub_length in X by lia. change (Z.of_nat 128) with 128 in X.
  pose proof (be_small _ BN) as M. pose proof (be_small _ BE) as E.
  assert (M2 : 0 < be n <= 256 ^ 128).
  { assert (256 ^ Z.of_nat (length n) <= 256 ^ 128) by (apply Z.pow_le_mono_r; lia). lia. }
  assert (E2 : 0 <= be e < 2 ^ Z.of_nat 64).
  { assert (256 ^ Z.of_nat (length e) <= 256 ^ 8) by (apply Z.pow_le_mono_r; lia). change (2 ^ Z.of_nat 64) with (256 ^ 8). lia. }
  split; [now apply power_z_value|]. clear - X M2 E2.
  destruct (be e) as [|p|p]; [split; [cbn; lia|constructor]| |lia]. cbn [power_z]. split.
  - pose proof (power_count (be n) (be (sub raw 0 128)) p) as C. pose proof (size_bound p 64 ltac:(apply E2)) as S64. lia.
  - destruct (power_products (be n) (be (sub raw 0 128)) p (256 ^ 128) M2 X) as [_ P].
    replace (256 ^ 256) with (256 ^ 128 * 256 ^ 128) by (rewrite <- Z.pow_add_r by lia; reflexivity). exact P.
Qed.

(** A verification of an accepted card with the default source computes at most two
    powers, with at most 126 products each, all below 256^256.

    Partial: the root key and the key of the authority must not be zero. *)
Theorem C134_work_partial : forall k files http ix cm us c, hash_bytes k -> sources_bytes files http ->
  Forall dumped_ok us -> accepted cm us c ->
  be (sub (cf_root files) 8 128) <> 0 ->
  (forall x ca, card_certificate c = Some x -> obtain_rsa_ca k (Some (default_resolver files http ix)) c x = Ok ca -> be (rsa_n ca) <> 0) ->
  (length (calls_card k (default_resolver files http ix) c) <= 2)%nat /\ Forall small_work (calls_card k (default_resolver files http ix) c).
Proof.
  intros k files http ix cm us c HK SB V A NR NA. unfold calls_card.
  destruct (dc_has c Gen1); [|split; [cbn; lia|constructor]]. destruct (card_certificate c) as [x|] eqn:X; [|split; [cbn; lia|constructor]].
  destruct (rsa_from_dump cm us c x V A X) as (ua & u & ub & _ & _ & _ & _ & EX & _ & _ & B). rewrite <- EX in B.
  set (r := default_resolver files http ix) in *.
  assert (D : forall car a, get_rsa r car = Ok (Some a) -> rsa_n a = [] /\ rsa_e a = [] /\ bytes_ok (rsa_raw a)).
  { intros car a G. destruct (default_rsa _ _ _ _ _ SB G) as (d & BD & U). unfold unmarshal_rsa in U. apply bind_ok in U as (? & _ & U). apply Ok_inj in U. subst a. auto. }
  assert (R : forall root, get_root r = Ok (Some root) -> root_n root = sub (cf_root files) 8 128 /\ root_e root = sub (cf_root files) 136 8 /\ length (cf_root files) = 144%nat).
  { intros root G. apply default_root in G. unfold unmarshal_root in G. apply bind_ok in G as (? & GU & U). apply Ok_inj in U. subst root.
    apply guard_ok in GU. apply Nat.eqb_eq in GU. auto. }
  assert (W1 : (length (calls_authority r x) <= 1)%nat /\ Forall small_work (calls_authority r x)).
  { unfold calls_authority. destruct (get_rsa r (rsa_car x)) as [[a|]|?|] eqn:G; try (split; [cbn; lia|constructor]).
    destruct (D _ _ G) as (N0 & E0 & BA). rewrite N0. cbn [length Nat.eqb orb].
    destruct (get_root r) as [[root|]|?|] eqn:GR; try (split; [cbn; lia|constructor]). destruct (R root eq_refl) as (RN & RE & LR).
    destruct (calls_one a (root_n root) (root_e root) (root_key_id root)) as [->|[-> L]]; [split; [cbn; lia|constructor]|].
    split; [cbn; lia|]. constructor; [|constructor]. rewrite RN, RE. destruct SB as (BR & _).
    apply small_call; auto; try (apply bytes_ok_sub; exact BR); try (rewrite sub_length by lia; lia). }
  assert (W2 : (length (match obtain_rsa_ca k (Some r) c x with Ok ca => calls_rsa x (rsa_n ca) (rsa_e ca) (rsa_chr ca) | _ => [] end) <= 1)%nat /\
    Forall small_work (match obtain_rsa_ca k (Some r) c x with Ok ca => calls_rsa x (rsa_n ca) (rsa_e ca) (rsa_chr ca) | _ => [] end)).
  { destruct (obtain_rsa_ca k (Some r) c x) as [ca|?|] eqn:O; try (split; [cbn; lia|constructor]).
    destruct (calls_one x (rsa_n ca) (rsa_e ca) (rsa_chr ca)) as [->|[-> L]]; [split; [cbn; lia|constructor]|].
    split; [cbn; lia|]. constructor; [|constructor]. specialize (NA x ca eq_refl O).
    unfold obtain_rsa_ca in O. apply bind_ok in O as (o & G & O). destruct o as [a|].
    2: { cbn in O. apply bind_ok in O as (root & _ & O). discriminate O. }
    destruct (D _ _ G) as (N0 & E0 & BA). cbn [odflt] in O. rewrite N0 in O. cbn [length Nat.eqb orb] in O.
    apply bind_ok in O as ([root|] & GR & O); [|discriminate O]. destruct (R root GR) as (RN & RE & LR). cbn [verify_rsa_with_root] in O.
    assert (BN : bytes_ok (root_n root)) by (rewrite RN; apply bytes_ok_sub, SB).
    destruct (verify_rsa_cases k a (root_n root) (root_e root) (root_key_id root) HK BA BN) as [(LA & KP & C & content & SG & RS)|[(W & RS)|(LA & KP & W & RS)]];
      rewrite RS in O; try discriminate O. apply Ok_inj in O. subst ca. cbn [rsa_filled rsa_n rsa_e] in *.
    destruct SG as (cr & BCR & LCR & -> & _).
    assert (BC : bytes_ok (cr ++ sub (rsa_raw a) 128 58)) by (apply Forall_app; split; [exact BCR|now apply bytes_ok_sub]).
    assert (LC : length (cr ++ sub (rsa_raw a) 128 58) = 164%nat) by (rewrite app_length, sub_length by lia; lia).
    apply small_call; auto; try (apply bytes_ok_sub; exact BC); try (rewrite sub_length by lia; lia). }
  split; [rewrite app_length; lia|]. apply Forall_app. split; [apply W1|apply W2].
Qed.
Print Assumptions C134_work_partial.

(** The toy card: two powers. *)
Example C134_example : hash_bytes toy /\ sources_bytes (toy_files toy_root) toy_http /\ be (sub (cf_root (toy_files toy_root)) 8 128) <> 0 /\
  exists us c, Forall dumped_ok us /\ accepted no_charmap us c /\
    (forall x ca, card_certificate c = Some x -> obtain_rsa_ca toy (Some (toy_resolver toy_root)) c x = Ok ca -> be (rsa_n ca) <> 0) /\
    length (calls_card toy (toy_resolver toy_root) c) = 2%nat.
Proof.
  split; [exact hash_toy|]. split; [apply toy_sources, toy_root_ok|]. split; [vm_compute; discriminate|].
  assert (H : exists c, verified toy (toy_resolver toy_root) (toy_dump [0; 0; 0; 1] [0; 0; 0; 1] 1) c /\
    ((length (calls_card toy (toy_resolver toy_root) c) =? 2)%nat &&
     match card_certificate c with
     | Some x => match obtain_rsa_ca toy (Some (toy_resolver toy_root)) c x with Ok ca => negb (be (rsa_n ca) =? 0) | _ => true end
     | None => true end) = true).
  { apply verified_b_ok. vm_compute. reflexivity. }
  destruct H as (c & (V & A & _) & H). apply andb_true_iff in H as [H1 H2]. eexists. exists c. split; [exact V|]. split; [exact A|]. split.
  - intros x ca X O. rewrite X, O in H2. destruct (Z.eqb_spec (be (rsa_n ca)) 0); [discriminate H2|assumption].
  - now apply Nat.eqb_eq in H1.
Qed.

(** An authority certificate, signed by the toy root, whose modulus is zero and whose
    exponent is 2^63. *)
Definition zero_authority : bytes :=
  toy_raw toy (1 :: to_be 8 7 ++ zeros 7 ++ [255; 255; 255; 255] ++ to_be 8 7 ++ zeros 128 ++ to_be 8 (2 ^ 63)) (to_be 8 1).
Definition zero_http (u : bytes) : res bytes := if list_eq_dec Z.eq_dec u [47] then Ok zero_authority else fail.

(** Then big.Int.Exp computes the power itself, a number of more than 2^62 bits. *)
Theorem C134_work_refuted : exists k files http ix us c b e m, hash_bytes k /\ sources_bytes files http /\
  Forall dumped_ok us /\ accepted no_charmap us c /\ be (sub (cf_root files) 8 128) <> 0 /\
  In (b, e, m) (calls_card k (default_resolver files http ix) c) /\
  exists v, In v (snd (power_z m b e)) /\ 2 ^ 2 ^ 62 < v.
Proof.
  assert (H : exists c, verified toy (toy_resolver toy_root) (toy_dump [0; 0; 0; 1] [0; 0; 0; 1] 1) c /\
    (match calls_card toy (default_resolver (toy_files toy_root) zero_http toy_index) c with
     | [_; ((b, e), m)] => (2 <=? b) && (e =? 9223372036854775808) && (m =? 0) | _ => false end) = true).
  { apply verified_b_ok. vm_compute. reflexivity. }
  destruct H as (c & (V & A & _) & H).
  destruct (calls_card toy (default_resolver (toy_files toy_root) zero_http toy_index) c) as [|x [|[[b e] m] [|? ?]]] eqn:C; try discriminate H.
  apply andb_true_iff in H as [H H3]. apply andb_true_iff in H as [H1 H2]. apply Z.leb_le in H1. apply Z.eqb_eq in H2, H3.
  exists toy, (toy_files toy_root), zero_http, toy_index. eexists. exists c, b, e, m.
  split; [exact hash_toy|]. split.
  { split; [exact toy_root_ok|]. split; [constructor|]. intros u d E. unfold zero_http in E. destruct (list_eq_dec _ _ _); [|discriminate].
    apply Ok_inj in E. subst d. apply bytes_okb_ok. vm_compute. reflexivity. }
  split; [exact V|]. split; [exact A|]. split; [vm_compute; discriminate|]. split; [rewrite C; right; left; reflexivity|].
  subst e m. exists (b ^ 9223372036854775808). split; [apply (power_whole b 4611686018427387904)|].
  apply Z.lt_le_trans with (2 ^ 9223372036854775808); [apply Z.pow_lt_mono_r; [lia| |]; vm_compute; reflexivity || discriminate|].
  apply Z.pow_le_mono_l. lia.
Qed.
Print Assumptions C134_work_refuted.
