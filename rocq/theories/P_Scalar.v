(** Lemmas about the scalar codecs. *)

From Verif Require Import Base Enums DDScalar.

(** ** BCD *)

Lemma nibbles_app l m : nibbles (l ++ m) = nibbles l ++ nibbles m.
Proof. induction l; simpl; congruence. Qed.

Lemma nibbles_length l : length (nibbles l) = (2 * length l)%nat.
Proof. induction l; simpl; lia. Qed.

Lemma dec_val_app l m :
  dec_val (l ++ m) = fold_left (fun a d => a * 10 + d) m (dec_val l).
Proof. unfold dec_val. apply fold_left_app. Qed.

Lemma dec_val_zeros n l : dec_val (zeros n ++ l) = dec_val l.
Proof.
  rewrite dec_val_app. replace (dec_val (zeros n)) with 0; [reflexivity|].
  unfold dec_val, zeros. induction n as [|n IH]; simpl; auto.
Qed.

Definition digits_ok (l : list Z) : Prop := Forall (fun d => 0 <= d < 10) l.

Lemma dec_val_range l : digits_ok l -> 0 <= dec_val l < 10 ^ Z.of_nat (length l).
Proof.
  induction l as [|d l IH] using rev_ind; intros H.
  - cbn; lia.
  - apply Forall_app in H as [H1 H2]. inversion H2; subst. specialize (IH H1).
    rewrite dec_val_app. cbn [fold_left]. rewrite app_length. cbn [length].
    rewrite Nat2Z.inj_add. change (Z.of_nat 1) with 1. rewrite Z.pow_add_r by lia.
    change (10 ^ 1) with 10. nia.
Qed.

Lemma itoa_fuel_spec f v :
  0 <= v < 2 ^ Z.of_nat f ->
  digits_ok (itoa_fuel f v) /\ dec_val (itoa_fuel f v) = v /\
  (forall k, (1 <= k)%nat -> ((length (itoa_fuel f v) <= k)%nat <-> v < 10 ^ Z.of_nat k)).
Proof.
  revert v; induction f as [|f IH]; intros v H.
  - cbn [itoa_fuel]. change (2 ^ Z.of_nat 0) with 1 in H.
    repeat split; [constructor| |intros; lia|simpl; intros; lia].
    cbn; lia.
  - cbn [itoa_fuel]. destruct (Z.ltb_spec v 10).
    + repeat split; try (intros; simpl; lia).
      * constructor; [lia|constructor].
      * intros _. assert (10 ^ 1 <= 10 ^ Z.of_nat k) by (apply Z.pow_le_mono_r; lia). lia.
    + rewrite Nat2Z.inj_succ, Z.pow_succ_r in H by lia.
      destruct (IH (v / 10)) as (D & E & L). { lia. }
      repeat split.
      * apply Forall_app; split; [auto|]. constructor; [lia|constructor].
      * rewrite dec_val_app, E. cbn [fold_left]. lia.
      * rewrite app_length; cbn [length]. intros Hk.
        destruct k as [|[|k]]; [lia| |].
        -- exfalso. destruct (itoa_fuel f (v / 10)) eqn:Q; [|simpl in Hk; lia].
           cbn in E. lia.
        -- assert (Q : v / 10 < 10 ^ Z.of_nat (S k)) by (apply L; lia).
           rewrite (Nat2Z.inj_succ (S k)), Z.pow_succ_r by lia. lia.
      * rewrite app_length; cbn [length]. intros Hv.
        destruct k as [|[|k]]; [lia| |].
        -- change (10 ^ Z.of_nat 1) with 10 in Hv. lia.
        -- rewrite (Nat2Z.inj_succ (S k)), Z.pow_succ_r in Hv by lia.
           assert (Q : v / 10 < 10 ^ Z.of_nat (S k)) by lia.
           apply L in Q; lia.
Qed.

Lemma itoa_spec v :
  0 <= v ->
  digits_ok (itoa v) /\ dec_val (itoa v) = v /\
  (forall k, (1 <= k)%nat -> ((length (itoa v) <= k)%nat <-> v < 10 ^ Z.of_nat k)).
Proof.
  intros H. apply itoa_fuel_spec. split; auto.
  rewrite Nat2Z.inj_succ, Z2Nat.id by apply Z.log2_nonneg.
  destruct (Z.eq_dec v 0) as [->|]; [cbn; lia|].
  apply Z.log2_spec. lia.
Qed.

Lemma itoa_nonempty v : 0 <= v -> (1 <= length (itoa v))%nat.
Proof.
  intros H. unfold itoa. cbn [itoa_fuel]. destruct (v <? 10); simpl; [lia|].
  rewrite app_length; simpl; lia.
Qed.

Lemma nibbles_pack ds n :
  digits_ok ds -> length ds = (2 * n)%nat ->
  nibbles (pack_nibbles ds) = ds /\ length (pack_nibbles ds) = n /\ bytes_ok (pack_nibbles ds).
Proof.
  revert ds; induction n as [|n IH]; intros ds D L.
  - destruct ds; [|discriminate]. repeat split; constructor.
  - destruct ds as [|h [|l t]]; simpl in L; try lia.
    inversion D as [|? ? Hh D']; subst. inversion D' as [|? ? Hl D'']; subst.
    destruct (IH t) as (A & B & C); [auto|lia|].
    cbn [pack_nibbles nibbles length]. repeat split.
    + rewrite A. f_equal; [lia|f_equal; lia].
    + lia.
    + constructor; auto. unfold byte_ok; lia.
Qed.

Lemma nibbles_range l : bytes_ok l -> Forall (fun d => 0 <= d < 16) (nibbles l).
Proof.
  induction l as [|b l IH]; intros H; simpl; [constructor|].
  apply bytes_ok_cons in H as [Hb Hl]. unfold byte_ok in Hb.
  repeat constructor; try lia. auto.
Qed.

Lemma pack_nibbles_nibbles l : bytes_ok l -> pack_nibbles (nibbles l) = l.
Proof.
  induction l as [|b l IH]; intros H; simpl; auto.
  apply bytes_ok_cons in H as [Hb Hl]. rewrite IH by auto. f_equal. unfold byte_ok in Hb; lia.
Qed.

Lemma decimal_digits_ok l :
  bytes_ok l -> forallb (fun d => d <? 10) (nibbles l) = true -> digits_ok (nibbles l).
Proof.
  intros H F. pose proof (nibbles_range l H) as R.
  rewrite forallb_forall in F. unfold digits_ok. rewrite Forall_forall in *.
  intros d Hd. specialize (F d Hd). specialize (R d Hd). lia.
Qed.

(** Equal numbers with equally many digits have the same digits. *)
Lemma dec_val_inj l m :
  digits_ok l -> digits_ok m -> length l = length m -> dec_val l = dec_val m -> l = m.
Proof.
  revert m; induction l as [|d l IH] using rev_ind; intros m Hl Hm L E.
  - destruct m; [auto|discriminate].
  - destruct (exists_last (l := m)) as (m' & e & ->).
    { intros ->. rewrite app_length in L; simpl in L; lia. }
    apply Forall_app in Hl as [Hl1 Hl2]. apply Forall_app in Hm as [Hm1 Hm2].
    inversion Hl2; inversion Hm2; subst.
    rewrite !app_length in L; simpl in L. rewrite !dec_val_app in E. cbn [fold_left] in E.
    assert (l = m') by (apply IH; auto; lia). subst. f_equal. f_equal. lia.
Qed.

Lemma decode_bcd_no_panic b : decode_bcd b <> Panic.
Proof. unfold decode_bcd. destruct (_ =? _)%nat; [|destruct (_ && _)]; discriminate. Qed.

(** Byte-exact round trip of BCD strings. *)
Lemma bcd_round_trip b v :
  bytes_ok b -> (1 <= length b)%nat -> decode_bcd b = Ok v -> append_bcd v (length b) = Ok b.
Proof.
  intros H L. unfold decode_bcd. destruct (Nat.eqb_spec (length b) 0); [lia|].
  destruct (forallb _ _ && _) eqn:E; [|discriminate]. intros Q; injection Q as <-.
  apply andb_prop in E as [E1 E2]. pose proof (decimal_digits_ok b H E1) as D.
  set (v := dec_val (nibbles b)) in *.
  pose proof (dec_val_range _ D) as R. fold v in R. rewrite nibbles_length in R.
  unfold append_bcd. destruct (Z.ltb_spec v 0); [lia|].
  destruct (itoa_spec v) as (D1 & E3 & Lk); [lia|].
  assert ((length (itoa v) <= 2 * length b)%nat) by (apply Lk; lia).
  destruct (Nat.ltb_spec (2 * length b) (length (itoa v))); [lia|].
  f_equal. rewrite <- (pack_nibbles_nibbles b H) at 2. f_equal.
  apply dec_val_inj; auto.
  - apply Forall_app; split; auto. apply Forall_forall. intros x Hx.
    apply repeat_spec in Hx. subst; lia.
  - rewrite app_length, zeros_length, nibbles_length. lia.
  - rewrite dec_val_zeros, E3. reflexivity.
Qed.

(** A decoded BCD string of at most four bytes re-encodes to its bytes. *)
Lemma bcd_string_round_trip b s :
  bytes_ok b -> (length b <= 4)%nat ->
  unmarshal_bcd_string b = Ok s -> append_bcd_string (Some s) = Ok b.
Proof.
  intros H L U. unfold unmarshal_bcd_string in U.
  inv_bind U. inv_bind U. inv_ok. simpl.
  assert (L1 : (1 <= length b)%nat) by (destruct (length b); [discriminate|lia]).
  pose proof (bcd_round_trip _ _ H L1 E0) as R.
  assert (V : 0 <= a0 < 100000000).
  { unfold decode_bcd in E0. destruct (Nat.eqb_spec (length b) 0); [lia|].
    destruct (forallb _ _ && _) eqn:Q; [|discriminate]. injection E0 as <-.
    apply andb_prop in Q as [Q _].
    pose proof (dec_val_range _ (decimal_digits_ok b H Q)) as R'.
    rewrite nibbles_length in R'.
    assert (10 ^ Z.of_nat (2 * length b) <= 10 ^ 8) by (apply Z.pow_le_mono_r; lia).
    change (10 ^ 8) with 100000000 in *. lia. }
  assert (S : s32 a0 = a0).
  { unfold s32. rewrite Z.mod_small by lia. destruct (Z.ltb_spec a0 2147483648); lia. }
  rewrite S. destruct (Z.ltb_spec a0 0); [lia|].
  destruct (Z.leb_spec (Z.of_nat (length b)) 0); [lia|].
  rewrite Nat2Z.id. exact R.
Qed.

Lemma append_bcd_length v n b : append_bcd v n = Ok b -> length b = n /\ bytes_ok b.
Proof.
  unfold append_bcd. destruct (Z.ltb_spec v 0); [discriminate|].
  destruct (Nat.ltb_spec (2 * n) (length (itoa v))); [discriminate|]. intros E; injection E as <-.
  destruct (itoa_spec v) as (D & _ & _); [lia|].
  destruct (nibbles_pack (zeros (2 * n - length (itoa v)) ++ itoa v) n) as (_ & L & B); auto.
  - apply Forall_app; split; auto. apply Forall_forall. intros x Hx.
    apply repeat_spec in Hx. subst; lia.
  - rewrite app_length, zeros_length. lia.
Qed.

Lemma append_bcd_no_panic v n : append_bcd v n <> Panic.
Proof. unfold append_bcd. destruct (_ <? _); [discriminate|]. destruct (_ <? _)%nat; discriminate. Qed.

(** ** Odometer *)

Lemma append_odometer_length v : length (append_odometer v) = 3%nat.
Proof. unfold append_odometer. rewrite sub_length; [auto|]. rewrite to_be_length. lia. Qed.

Lemma append_odometer_ok v : bytes_ok (append_odometer v).
Proof. apply bytes_ok_sub, to_be_ok. Qed.

Lemma to_be_last3 v : append_odometer v = to_be 3 v.
Proof. reflexivity. Qed.

Lemma odometer_round_trip d : bytes_ok d -> length d = 3%nat -> append_odometer (be d) = d.
Proof. intros. rewrite to_be_last3. apply to_be_be; auto. Qed.

Lemma unmarshal_odometer_ok d : length d = 3%nat -> unmarshal_odometer d = Ok (be d).
Proof. intros H. unfold unmarshal_odometer. rewrite H. reflexivity. Qed.

(** ** Time *)

Lemma unmarshal_time_ok d :
  length d = 4%nat ->
  unmarshal_time d = Ok (if be d =? 0 then None else Some (mkTs (be d) 0)).
Proof. intros H. unfold unmarshal_time. rewrite H. simpl. destruct (be d =? 0); reflexivity. Qed.

Lemma time_round_trip d t :
  bytes_ok d -> length d = 4%nat -> unmarshal_time d = Ok t -> append_time t = Ok d.
Proof.
  intros H L. rewrite unmarshal_time_ok by auto. intros E; injection E as <-.
  destruct (Z.eqb_spec (be d) 0) as [E|E]; simpl.
  - unfold append_time. cbn [guard bind ts_nanos odflt negb Z.ltb Z.compare ts_seconds].
    rewrite <- E. rewrite to_be_be by auto. reflexivity.
  - unfold append_time. cbn [guard bind ts_nanos odflt negb Z.ltb Z.compare ts_seconds].
    rewrite to_be_be by auto. reflexivity.
Qed.

Lemma append_time_length t b : append_time t = Ok b -> length b = 4%nat /\ bytes_ok b.
Proof.
  unfold append_time. intros H. inv_bind H. inv_ok. split; [apply to_be_length|apply to_be_ok].
Qed.

Lemma append_time_no_panic t : append_time t <> Panic.
Proof.
  unfold append_time. intros H. apply bind_panic in H as [H|(? & _ & H)]; [|discriminate].
  now apply guard_no_panic in H.
Qed.

(** ** Two-digit bytes *)

(** A byte whose nibbles are both decimal digits. *)
Definition decimal_byte (b : Z) : Prop := 0 <= b < 256 /\ b / 16 < 10 /\ b mod 16 < 10.

Lemma csv_byte_sweep :
  forallb (fun b => Bool.eqb (bcd2 (b / 16 * 10 + b mod 16) =? b) (b mod 16 <? 10)) (zrange 256) = true.
Proof. vm_compute. reflexivity. Qed.

Lemma csv_byte b : byte_ok b -> (bcd2 (b / 16 * 10 + b mod 16) = b <-> b mod 16 < 10).
Proof.
  intros H. pose proof (sweep _ _ csv_byte_sweep b H) as S. cbv beta in S.
  apply Bool.eqb_prop in S.
  destruct (Z.eqb_spec (bcd2 (b / 16 * 10 + b mod 16)) b);
    destruct (Z.ltb_spec (b mod 16) 10); split; intros; congruence || lia.
Qed.

Lemma date_byte_sweep :
  forallb (fun b => Bool.eqb (date_digits (Z.quot (b / 16 * 10 + b mod 16) 10) (b / 16 * 10 + b mod 16) =? b)
     ((b mod 16 <? 10) && (b / 16 <? 10))) (zrange 256) = true.
Proof. vm_compute. reflexivity. Qed.

Lemma date_byte b : byte_ok b ->
  (date_digits (Z.quot (b / 16 * 10 + b mod 16) 10) (b / 16 * 10 + b mod 16) = b <-> decimal_byte b).
Proof.
  intros H. pose proof (sweep _ _ date_byte_sweep b H) as S. cbv beta in S.
  apply Bool.eqb_prop in S. unfold decimal_byte.
  destruct (Z.eqb_spec (date_digits (Z.quot (b / 16 * 10 + b mod 16) 10) (b / 16 * 10 + b mod 16)) b);
    destruct (Z.ltb_spec (b mod 16) 10); destruct (Z.ltb_spec (b / 16) 10);
    simpl in S; try congruence; unfold byte_ok in H; intuition lia.
Qed.
