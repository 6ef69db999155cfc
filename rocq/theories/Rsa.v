(** RSA: a number raised to the private and then to the public exponent comes back.

    Nothing here is part of the repository; it is used to say what a genuine
    certificate is. *)

From Coq Require Import ZArith List Lia Permutation Znumtheory Zpow_facts.
Import ListNotations.
Local Open Scope Z_scope.

(** ** Fermat's little theorem *)

Definition product (l : list Z) : Z := fold_right Z.mul 1 l.

Lemma product_perm l l' : Permutation l l' -> product l = product l'.
Proof. intros P. unfold product. induction P; cbn; nia. Qed.

Lemma product_app l l' : product (l ++ l') = product l * product l'.
Proof.
  unfold product. induction l as [|i l IH]; cbn [app fold_right].
  - now rewrite Z.mul_1_l.
  - rewrite IH. ring.
Qed.

Definition below (p : Z) : list Z := map Z.of_nat (seq 1 (Z.to_nat (p - 1))).

Lemma in_below p i : In i (below p) <-> 1 <= i < p.
Proof.
  unfold below. rewrite in_map_iff. split.
  - intros (n & <- & I). apply in_seq in I. lia.
  - intros H. exists (Z.to_nat i). split; [lia|]. apply in_seq. lia.
Qed.

Lemma below_nodup p : NoDup (below p).
Proof. apply FinFun.Injective_map_NoDup; [|apply seq_NoDup]. intros a b. lia. Qed.

Lemma not_divides p i : prime p -> 1 <= i < p -> ~ (p | i).
Proof. intros P H D. apply Z.divide_pos_le in D; lia. Qed.

Lemma scaled_perm p a : prime p -> ~ (p | a) -> Permutation (below p) (map (fun i => a * i mod p) (below p)).
Proof.
  intros P N. pose proof (prime_ge_2 p P) as G.
  apply Permutation_sym. apply NoDup_Permutation_bis.
  - assert (H : forall l, NoDup l -> (forall i, In i l -> 1 <= i < p) -> NoDup (map (fun i => a * i mod p) l)).
    { induction l as [|i l IH]; intros U B; [constructor|]. cbn. inversion U as [|? ? Ni Ul]. subst. constructor.
      - rewrite in_map_iff. intros (j & E & J).
        assert (D : (p | a * (j - i))).
        { apply Z.mod_divide; [lia|]. rewrite Z.mul_sub_distr_l, Zminus_mod, E, Z.sub_diag. reflexivity. }
        apply prime_mult in D as [D|D]; auto.
        pose proof (B i (or_introl eq_refl)). pose proof (B j (or_intror J)).
        assert (j = i).
        { destruct D as [q D]. assert (q = 0) by nia. nia. }
        subst. contradiction.
      - apply IH; auto. intros k K. apply B. now right. }
    apply H; [apply below_nodup|]. intros i. apply in_below.
  - rewrite map_length. lia.
  - intros x X. apply in_map_iff in X as (i & <- & I). apply in_below in I. apply in_below.
    pose proof (Z.mod_pos_bound (a * i) p ltac:(lia)).
    assert (a * i mod p <> 0); [|lia]. intros E. apply Z.mod_divide in E; [|lia].
    apply prime_mult in E as [E|E]; auto. exact (not_divides p i P I E).
Qed.

Lemma product_scaled p a l : 0 < p ->
  product (map (fun i => a * i mod p) l) mod p = a ^ Z.of_nat (length l) * product l mod p.
Proof.
  intros G. induction l as [|i l IH]; [reflexivity|].
  change (product (map (fun i => a * i mod p) (i :: l))) with (a * i mod p * product (map (fun i => a * i mod p) l)).
  change (product (i :: l)) with (i * product l).
  rewrite Z.mul_mod_idemp_l by lia. rewrite <- Z.mul_mod_idemp_r, IH, Z.mul_mod_idemp_r by lia.
  cbn [length]. rewrite Nat2Z.inj_succ, Z.pow_succ_r by lia. f_equal. ring.
Qed.

Lemma product_not_divides p l : prime p -> (forall i, In i l -> ~ (p | i)) -> ~ (p | product l).
Proof.
  intros P. induction l as [|i l IH]; intros H D.
  - cbn in D. pose proof (prime_ge_2 p P). apply Z.divide_pos_le in D; lia.
  - cbn in D. apply prime_mult in D as [D|D]; auto.
    + exact (H i (or_introl eq_refl) D).
    + apply IH; auto. intros j J. apply H. now right.
Qed.

Theorem fermat : forall p a, prime p -> ~ (p | a) -> (p | a ^ (p - 1) - 1).
Proof.
  intros p a P N. pose proof (prime_ge_2 p P) as G.
  pose proof (product_scaled p a (below p) ltac:(lia)) as E.
  rewrite <- (product_perm _ _ (scaled_perm p a P N)) in E.
  assert (L : Z.of_nat (length (below p)) = p - 1) by (unfold below; rewrite map_length, seq_length; lia).
  rewrite L in E.
  assert (D : (p | (a ^ (p - 1) - 1) * product (below p))).
  { apply Z.mod_divide; [lia|]. rewrite Z.mul_sub_distr_r, Z.mul_1_l, Zminus_mod, <- E, Z.sub_diag. reflexivity. }
  apply prime_mult in D as [D|D]; auto. exfalso. revert D. apply product_not_divides; auto.
  intros i I. apply in_below in I. now apply not_divides.
Qed.

(** ** RSA *)

(** The exponent [k] leaves numbers unchanged modulo [p] if [p - 1] divides [k - 1]. *)
Lemma power_fixes p a k : prime p -> 0 < k -> (p - 1 | k - 1) -> (p | a ^ k - a).
Proof.
  intros P K (q & Q). pose proof (prime_ge_2 p P) as G.
  destruct (Zdivide_dec p a) as [D|D].
  - apply Z.divide_sub_r; auto. replace k with (Z.succ (k - 1)) by lia. rewrite Z.pow_succ_r by lia. now apply Z.divide_mul_l.
  - assert (0 <= q) by nia. replace k with (Z.succ ((p - 1) * q)) by lia.
    rewrite Z.pow_succ_r, Z.pow_mul_r by nia.
    replace (a * (a ^ (p - 1)) ^ q - a) with (a * ((a ^ (p - 1)) ^ q - 1)) by ring. apply Z.divide_mul_r.
    destruct (fermat p a P D) as [z E]. replace (a ^ (p - 1)) with (1 + z * p) by lia.
    apply Z.mod_divide; [lia|].
    rewrite Zminus_mod, Zpower_mod, Z.mod_add, Z.mod_1_l, Z.pow_1_l, Z.mod_1_l, Z.sub_diag by lia. reflexivity.
Qed.

(** Distinct primes that divide a number one by one divide it together. *)
Lemma primes_divide ps x : Forall prime ps -> NoDup ps -> Forall (fun p => (p | x)) ps -> (product ps | x).
Proof.
  revert x. induction ps as [|p ps IH]; intros x P U D; [exists x; cbn; lia|].
  inversion P as [|? ? Pp Ps]. inversion U as [|? ? Np Us]. inversion D as [|? ? (z & ->) Ds]. subst.
  cbn. assert (H : (product ps | z)); [|destruct H as [w ->]; exists w; unfold product; ring].
  apply IH; auto. rewrite Forall_forall in *. intros q Q. pose proof (Ds q Q) as E. apply prime_mult in E as [E|E]; auto.
  apply prime_div_prime in E; auto. subst. contradiction.
Qed.

(** A key pair: a modulus that is a product of distinct primes (two, as a rule) and
    exponents that are inverse to each other modulo each of them less one. *)
Definition rsa_pair (n e d : Z) : Prop :=
  exists ps, Forall prime ps /\ NoDup ps /\ n = product ps /\ 0 < e /\ 0 < d /\
    Forall (fun p => (p - 1 | e * d - 1)) ps.

Theorem rsa_comes_back : forall n e d m, rsa_pair n e d -> 0 <= m < n -> (m ^ d mod n) ^ e mod n = m.
Proof.
  intros n e d m (ps & P & U & -> & E & D & H) M.
  rewrite <- Zpower_mod by lia. rewrite <- Z.pow_mul_r by lia.
  assert (Q : (product ps | m ^ (d * e) - m)).
  { apply primes_divide; auto. rewrite Forall_forall in *. intros p I. apply power_fixes; auto; [nia|].
    rewrite Z.mul_comm. auto. }
  destruct Q as [z Q]. replace (m ^ (d * e)) with (m + z * product ps) by lia.
  rewrite Z.mod_add by lia. apply Z.mod_small. lia.
Qed.

(** Two primes, as the regulation has it. *)
Lemma two_primes p q e d : prime p -> prime q -> p <> q -> 0 < e -> 0 < d ->
  (p - 1 | e * d - 1) -> (q - 1 | e * d - 1) -> rsa_pair (p * q) e d.
Proof.
  intros P Q N E D H1 H2. exists [p; q]. repeat split; auto.
  - repeat constructor; auto; cbn; intuition.
  - cbn. ring.
Qed.

(** ** Primes by trial division *)

Definition trial (bound p : Z) : bool :=
  (0 <? bound) && (1 <? p) && (p <? bound * bound) &&
  forallb (fun i => negb (p mod Z.of_nat i =? 0)) (seq 2 (Z.to_nat (bound - 2))).

Lemma trial_prime bound p : trial bound p = true -> prime p.
Proof.
  unfold trial. rewrite !Bool.andb_true_iff. intros (((B0 & G) & L) & H).
  apply Z.ltb_lt in B0, G, L. rewrite forallb_forall in H.
  assert (N : forall i, 2 <= i < bound -> ~ (i | p)).
  { intros i I D. specialize (H (Z.to_nat i)). rewrite Z2Nat.id in H by lia.
    apply Z.mod_divide in D; [|lia]. rewrite D in H. discriminate H. apply in_seq. lia. }
  apply prime_alt. split; [lia|]. intros i I D. destruct D as [j D].
  assert (J : 1 < j < p) by nia.
  destruct (Z.lt_ge_cases i bound) as [B|B].
  - apply (N i); [lia|]. exists j. lia.
  - apply (N j); [|exists i; lia]. split; [lia|]. apply Z.nle_gt. intros C.
    pose proof (Z.mul_le_mono_nonneg bound j bound i ltac:(lia) C ltac:(lia) B). lia.
Qed.
