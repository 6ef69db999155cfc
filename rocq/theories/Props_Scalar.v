(** Properties C21-C27, C32, C33: scalar data types. *)

From Verif Require Import Base Enums DDScalar P_Scalar.

(** * C21: timestamps *)

Theorem C21_time_real_round_trip :
  (* every 4-byte encoding denotes its big-endian number of seconds *)
  (forall b0 b1 b2 b3, byte_ok b0 -> byte_ok b1 -> byte_ok b2 -> byte_ok b3 ->
     let s := b0 * 2 ^ 24 + b1 * 2 ^ 16 + b2 * 2 ^ 8 + b3 in
     let t := if s =? 0 then None else Some (mkTs s 0) in
     unmarshal_time [b0; b1; b2; b3] = Ok t /\ append_time t = Ok [b0; b1; b2; b3]) /\
  (* every representable instant survives *)
  (forall s, 1 <= s < 2 ^ 32 ->
     exists d, append_time (Some (mkTs s 0)) = Ok d /\ bytes_ok d /\ length d = 4%nat /\
               unmarshal_time d = Ok (Some (mkTs s 0))) /\
  (* sub-second parts are refused *)
  (forall s n, 0 < n -> exists e, append_time (Some (mkTs s n)) = Err e) /\
  (* and nothing else is representable *)
  (forall s n d, append_time (Some (mkTs s n)) = Ok d ->
     unmarshal_time d = Ok (Some (mkTs s n)) -> 1 <= s < 2 ^ 32 /\ n = 0) /\
  (* other lengths are refused *)
  (forall d, length d <> 4%nat -> exists e, unmarshal_time d = Err e).
Proof.
  split; [|split; [|split; [|split]]].
  - intros b0 b1 b2 b3 H0 H1 H2 H3 s t.
    assert (B : bytes_ok [b0; b1; b2; b3]) by (repeat constructor; apply H0 || apply H1 || apply H2 || apply H3).
    assert (E : be [b0; b1; b2; b3] = s) by (unfold s; cbn [be be_acc]; unfold be; cbn [be_acc]; lia).
    assert (U : unmarshal_time [b0; b1; b2; b3] = Ok t)
      by (rewrite unmarshal_time_ok by reflexivity; rewrite E; reflexivity).
    split; auto. eapply time_round_trip; eauto.
  - intros s Hs. exists (to_be 4 s). repeat split.
    + apply to_be_ok.
    + rewrite unmarshal_time_ok by apply to_be_length. rewrite be_to_be.
      change (256 ^ Z.of_nat 4) with (2 ^ 32). rewrite Z.mod_small by lia.
      destruct (Z.eqb_spec s 0); [lia|reflexivity].
  - intros s n Hn. exists EOther. unfold append_time. cbn [odflt ts_nanos].
    destruct (Z.ltb_spec 0 n); [reflexivity|lia].
  - intros s n d H U. unfold append_time in H. inv_bind H. inv_ok. cbn [odflt ts_nanos ts_seconds] in *.
    rewrite unmarshal_time_ok, be_to_be in U by apply to_be_length.
    apply Ok_inj in U. change (256 ^ Z.of_nat 4) with (2 ^ 32) in U.
    destruct (Z.eqb_spec (s mod 2 ^ 32) 0); [discriminate|]. injection U as U1 U2.
    change (2 ^ 32) with 4294967296 in *. lia.
  - intros d H. exists EOther. unfold unmarshal_time.
    destruct (Nat.eqb_spec (length d) 4); [contradiction|reflexivity].
Qed.
Print Assumptions C21_time_real_round_trip.

Example C21_example :
  unmarshal_time [0x65; 0x9a; 0x01; 0x00] = Ok (Some (mkTs 1704591616 0)) /\
  unmarshal_time [0; 0; 0; 0] = Ok None /\
  append_time (Some (mkTs 1704591616 0)) = Ok [0x65; 0x9a; 0x01; 0x00].
Proof. repeat split. Qed.

(** * C22: odometers *)

Theorem C22_odometer_round_trip :
  (forall b0 b1 b2, byte_ok b0 -> byte_ok b1 -> byte_ok b2 ->
     unmarshal_odometer [b0; b1; b2] = Ok (b0 * 2 ^ 16 + b1 * 2 ^ 8 + b2) /\
     append_odometer (b0 * 2 ^ 16 + b1 * 2 ^ 8 + b2) = [b0; b1; b2]) /\
  (forall v, unmarshal_odometer (append_odometer v) = Ok (v mod 2 ^ 24)) /\
  (forall d, length d <> 3%nat -> exists e, unmarshal_odometer d = Err e).
Proof.
  split; [|split].
  - intros b0 b1 b2 H0 H1 H2.
    assert (B : bytes_ok [b0; b1; b2]) by (repeat constructor; apply H0 || apply H1 || apply H2).
    assert (E : be [b0; b1; b2] = b0 * 2 ^ 16 + b1 * 2 ^ 8 + b2) by (unfold be; cbn [be_acc]; lia).
    rewrite unmarshal_odometer_ok by reflexivity. rewrite <- E. split; auto.
    apply odometer_round_trip; auto.
  - intros v. rewrite unmarshal_odometer_ok by apply append_odometer_length.
    rewrite to_be_last3, be_to_be. reflexivity.
  - intros d H. exists EOther. unfold unmarshal_odometer.
    destruct (Nat.eqb_spec (length d) 3); [contradiction|reflexivity].
Qed.
Print Assumptions C22_odometer_round_trip.

Example C22_example :
  unmarshal_odometer [0x01; 0xe2; 0x40] = Ok 123456 /\
  append_odometer 123456 = [0x01; 0xe2; 0x40] /\
  append_odometer (16777216 + 5) = [0; 0; 5].
Proof. repeat split. Qed.

(** * C23: BCD *)

(** Specification: [b] spells the decimal number [v], two digits per byte. *)
Inductive spells : bytes -> Z -> Prop :=
| spells_nil : spells [] 0
| spells_snoc b v h l :
    spells b v -> 0 <= h <= 9 -> 0 <= l <= 9 ->
    spells (b ++ [16 * h + l]) (100 * v + 10 * h + l).

(** Some nibble is not a decimal digit. *)
Definition non_decimal (b : bytes) : Prop := Exists (fun x => x / 16 > 9 \/ x mod 16 > 9) b.

Lemma spells_iff b v :
  bytes_ok b -> (spells b v <-> (digits_ok (nibbles b) /\ dec_val (nibbles b) = v)).
Proof.
  intros H. split.
  - intros S. induction S as [|b v h l S IH Hh Hl].
    + split; [constructor|reflexivity].
    + apply bytes_ok_app in H as [H _]. destruct (IH H) as [D E].
      rewrite nibbles_app. cbn [nibbles].
      replace ((16 * h + l) / 16) with h by lia. replace ((16 * h + l) mod 16) with l by lia.
      split.
      * apply Forall_app; split; auto. repeat constructor; lia.
      * rewrite dec_val_app, E. cbn [fold_left]. lia.
  - revert v. induction b as [|x b IH] using rev_ind; intros v [D E].
    + cbn in E; subst. constructor.
    + apply bytes_ok_app in H as [H Hx]. apply bytes_ok_cons in Hx as [Hx _].
      unfold byte_ok in Hx. rewrite nibbles_app in *. cbn [nibbles] in *.
      apply Forall_app in D as [D1 D2].
      inversion D2 as [|? ? Dh D3]; subst. inversion D3 as [|? ? Dl D4]; subst.
      rewrite dec_val_app. cbn [fold_left].
      replace x with (16 * (x / 16) + x mod 16) at 1 by lia.
      replace ((dec_val (nibbles b) * 10 + x / 16) * 10 + x mod 16)
        with (100 * dec_val (nibbles b) + 10 * (x / 16) + x mod 16) by lia.
      constructor; [apply IH; auto| |]; lia.
Qed.

Lemma non_decimal_iff b :
  bytes_ok b -> (non_decimal b <-> forallb (fun d => d <? 10) (nibbles b) = false).
Proof.
  unfold non_decimal. induction b as [|x b IH]; intros H.
  - simpl. split; [intros E; inversion E|discriminate].
  - apply bytes_ok_cons in H as [Hx H]. specialize (IH H).
    rewrite Exists_cons, IH. cbn [nibbles forallb]. unfold byte_ok in Hx.
    destruct (Z.ltb_spec (x / 16) 10); destruct (Z.ltb_spec (x mod 16) 10); simpl;
      intuition lia.
Qed.

(** Decoding: exactly the decimal strings whose number fits in 63 bits. *)
Theorem C23_bcd_decode_partial :
  forall b, bytes_ok b ->
  (forall v, decode_bcd b = Ok v <-> spells b v /\ v < 2 ^ 63) /\
  ((length b <= 9)%nat -> ((exists e, decode_bcd b = Err e) <-> non_decimal b)).
Proof.
  intros b H.
  assert (A : forall v, decode_bcd b = Ok v <-> spells b v /\ v < 2 ^ 63).
  { intros v. rewrite spells_iff by auto. unfold decode_bcd, max_int64.
    change (2 ^ 63) with 9223372036854775808.
    destruct (Nat.eqb_spec (length b) 0).
    - destruct b; [|discriminate]. cbn. split; intros Q.
      + injection Q as <-. split; [split; [constructor|reflexivity]|lia].
      + destruct Q as [[_ Q] _]. congruence.
    - split.
      + destruct (forallb _ _) eqn:F; simpl; [|discriminate].
        destruct (Z.leb_spec (dec_val (nibbles b)) 9223372036854775807); [|discriminate].
        intros Q; injection Q as <-. repeat split; auto; [|lia].
        apply decimal_digits_ok; auto.
      + intros [[D E] L].
        assert (F : forallb (fun d => d <? 10) (nibbles b) = true).
        { apply forallb_forall. unfold digits_ok in D. rewrite Forall_forall in D.
          intros d Hd. specialize (D d Hd). lia. }
        rewrite F, E. simpl. destruct (Z.leb_spec v 9223372036854775807); [reflexivity|lia]. }
  split; auto.
  intros L. rewrite non_decimal_iff by auto. split.
  - intros [e E]. destruct (forallb _ _) eqn:F; auto. exfalso.
    pose proof (decimal_digits_ok b H F) as D. pose proof (dec_val_range _ D) as R.
    rewrite nibbles_length in R.
    assert (10 ^ Z.of_nat (2 * length b) <= 10 ^ 18) by (apply Z.pow_le_mono_r; lia).
    assert (decode_bcd b = Ok (dec_val (nibbles b))); [|congruence].
    apply A. rewrite spells_iff by auto. repeat split; auto.
    change (10 ^ 18) with 1000000000000000000 in *.
    change (2 ^ 63) with 9223372036854775808. lia.
  - intros F. exists EOther. unfold decode_bcd. rewrite F.
    destruct (Nat.eqb_spec (length b) 0); [|reflexivity].
    destruct b; [discriminate F|discriminate].
Qed.
Print Assumptions C23_bcd_decode_partial.

(** Encoding: exactly the numbers of at most 2n digits, zero-padded. *)
Theorem C23_bcd_encode :
  forall n, (1 <= n)%nat ->
  (forall v b, append_bcd v n = Ok b -> bytes_ok b /\ length b = n /\ spells b v) /\
  (forall v, (exists b, append_bcd v n = Ok b) <-> 0 <= v < 10 ^ (2 * Z.of_nat n)) /\
  (forall b v, bytes_ok b -> length b = n -> spells b v -> append_bcd v n = Ok b) /\
  (forall v b, v < 2 ^ 63 -> append_bcd v n = Ok b -> decode_bcd b = Ok v).
Proof.
  intros n Hn.
  assert (A : forall v b, append_bcd v n = Ok b -> bytes_ok b /\ length b = n /\ spells b v).
  { intros v b E. pose proof (append_bcd_length _ _ _ E) as [L B]. repeat split; auto.
    rewrite spells_iff by auto. unfold append_bcd in E.
    destruct (Z.ltb_spec v 0); [discriminate|].
    destruct (Nat.ltb_spec (2 * n) (length (itoa v))); [discriminate|]. apply Ok_inj in E.
    destruct (itoa_spec v) as (D & V & _); [lia|].
    assert (D' : digits_ok (zeros (2 * n - length (itoa v)) ++ itoa v)).
    { apply Forall_app; split; auto. apply Forall_forall. intros x Hx.
      apply repeat_spec in Hx. subst; lia. }
    destruct (nibbles_pack _ n D') as (N & _ & _).
    { rewrite app_length, zeros_length. lia. }
    subst b. rewrite N. split; auto. rewrite dec_val_zeros. exact V. }
  split; [exact A|]. split; [|split].
  - intros v. unfold append_bcd. destruct (Z.ltb_spec v 0).
    { split; [intros [b E]; discriminate | lia]. }
    destruct (itoa_spec v) as (_ & _ & L); [lia|].
    specialize (L (2 * n)%nat). replace (Z.of_nat (2 * n)) with (2 * Z.of_nat n) in L by lia.
    destruct (Nat.ltb_spec (2 * n) (length (itoa v))).
    + split; [intros [b E]; discriminate|]. intros R. assert (v < 10 ^ (2 * Z.of_nat n)) by lia.
      apply L in H1; lia.
    + split; [|eauto]. intros _. split; [lia|]. apply L; lia.
  - intros b v B L S. rewrite spells_iff in S by auto. destruct S as [D E].
    pose proof (dec_val_range _ D) as R. rewrite E in R. rewrite nibbles_length, L in R.
    destruct (itoa_spec v) as (D2 & V & LL); [lia|].
    unfold append_bcd. destruct (Z.ltb_spec v 0); [lia|].
    assert ((length (itoa v) <= 2 * n)%nat) by (apply LL; lia).
    destruct (Nat.ltb_spec (2 * n) (length (itoa v))); [lia|]. f_equal.
    rewrite <- (pack_nibbles_nibbles b B). f_equal. apply dec_val_inj; auto.
    + apply Forall_app; split; auto. apply Forall_forall. intros x Hx.
      apply repeat_spec in Hx. subst; lia.
    + rewrite app_length, zeros_length, nibbles_length. lia.
    + rewrite dec_val_zeros. congruence.
  - intros v b Hv E. destruct (A v b E) as (B & _ & S).
    apply (C23_bcd_decode_partial b B); auto.
Qed.
Print Assumptions C23_bcd_encode.

(** The BcdString message round-trips byte-exactly up to four bytes (all uses in
    the data dictionary have two to four bytes). *)
Theorem C23_bcd_string_partial :
  forall b s, bytes_ok b -> (length b <= 4)%nat ->
  unmarshal_bcd_string b = Ok s ->
  spells b (bcd_value s) /\ bcd_length s = Z.of_nat (length b) /\
  append_bcd_string (Some s) = Ok b.
Proof.
  intros b s H L U. split; [|split].
  - pose proof (bcd_string_round_trip b s H L U) as R.
    unfold unmarshal_bcd_string in U. inv_bind U. inv_bind U. inv_ok.
    cbn [append_bcd_string bcd_value bcd_length] in *.
    destruct (_ <? _) eqn:?; [discriminate|]. destruct (_ <=? _) eqn:?; [discriminate|].
    destruct (C23_bcd_encode (Z.to_nat (Z.of_nat (length b)))) as [A _]; [lia|].
    apply A in R. tauto.
  - unfold unmarshal_bcd_string in U. inv_bind U. inv_bind U. inv_ok. reflexivity.
  - eapply bcd_string_round_trip; eauto.
Qed.
Print Assumptions C23_bcd_string_partial.

(** The claim fails for longer strings: five bytes overflow the 32-bit value and
    ten bytes are refused although every nibble is a digit. *)
Theorem C23_bcd_refuted :
  (exists b s, bytes_ok b /\ spells b 9999999999 /\ unmarshal_bcd_string b = Ok s /\
               bcd_value s <> 9999999999) /\
  (exists b, bytes_ok b /\ ~ non_decimal b /\ exists e, decode_bcd b = Err e).
Proof.
  split.
  - exists (repeat 0x99 5), (mkBcd 1410065407 5).
    assert (B : bytes_ok (repeat 0x99 5)) by (apply bytes_ok_repeat; unfold byte_ok; lia).
    repeat split; auto.
    + apply spells_iff; auto. split; [repeat constructor; simpl; lia|reflexivity].
    + simpl; lia.
  - exists (repeat 0x99 10).
    assert (B : bytes_ok (repeat 0x99 10)) by (apply bytes_ok_repeat; unfold byte_ok; lia).
    repeat split; auto.
    + intros N. apply non_decimal_iff in N; auto. discriminate.
    + exists EOther. reflexivity.
Qed.
Print Assumptions C23_bcd_refuted.

Example C23_example :
  decode_bcd [0x12; 0x34] = Ok 1234 /\ append_bcd 7 2 = Ok [0; 7] /\
  append_bcd 12345 2 = fail /\ decode_bcd [0x1A] = fail.
Proof. repeat split. Qed.

(** * C24: dates *)

(** Specification: both nibbles of every byte are decimal digits. *)
Definition all_decimal (b : bytes) : Prop := Forall (fun x => x / 16 <= 9 /\ x mod 16 <= 9) b.

Lemma set4 a b c d x0 x1 x2 x3 :
  set_byte (set_byte (set_byte (set_byte [a; b; c; d] 0 x0) 1 x1) 2 x2) 3 x3 = [x0; x1; x2; x3].
Proof. reflexivity. Qed.

Lemma set2 a b x0 x1 : set_byte (set_byte [a; b] 0 x0) 1 x1 = [x0; x1].
Proof. reflexivity. Qed.

Lemma date_append_eq d y m dd :
  length d = 4%nat ->
  append_date (Some (mkDate (Some d) y m dd)) =
  Ok [date_digits (Z.quot y 1000) (Z.quot y 100); date_digits (Z.quot y 10) y;
      date_digits (Z.quot m 10) m; date_digits (Z.quot dd 10) dd].
Proof.
  intros L. destruct d as [|b0 [|b1 [|b2 [|b3 [|]]]]]; simpl in L; try lia. reflexivity.
Qed.

Lemma lor_digits h l : 0 <= l < 16 -> Z.lor (h * 16) l = h * 16 + l.
Proof.
  intros H. change 16 with (2 ^ 4). rewrite Z.lor_comm, lor_low_high by (simpl; lia). lia.
Qed.

Lemma date_digits_eq x y : 0 <= x -> 0 <= y -> date_digits x y = x mod 10 * 16 + y mod 10.
Proof.
  intros Hx Hy. unfold date_digits, u8.
  rewrite !Z.rem_mod_nonneg, lor_digits by lia. lia.
Qed.

Lemma year_bytes b0 b1 :
  byte_ok b0 -> byte_ok b1 ->
  let y := b0 / 16 * 1000 + b0 mod 16 * 100 + b1 / 16 * 10 + b1 mod 16 in
  (date_digits (Z.quot y 1000) (Z.quot y 100) = b0 /\ date_digits (Z.quot y 10) y = b1) <->
  (b0 / 16 <= 9 /\ b0 mod 16 <= 9 /\ b1 / 16 <= 9 /\ b1 mod 16 <= 9).
Proof.
  intros H0 H1 y. unfold byte_ok in *.
  assert (P : exists a b c d, a = b0 / 16 /\ b = b0 mod 16 /\ c = b1 / 16 /\ d = b1 mod 16) by (repeat eexists).
  destruct P as (a & b & c & d & Ea & Eb & Ec & Ed).
  assert (Ra : 0 <= a < 16) by lia. assert (Rb : 0 <= b < 16) by lia.
  assert (Rc : 0 <= c < 16) by lia. assert (Rd : 0 <= d < 16) by lia.
  assert (Q0 : b0 = a * 16 + b) by lia. assert (Q1 : b1 = c * 16 + d) by lia.
  assert (Ry : y = a * 1000 + b * 100 + c * 10 + d) by (unfold y; lia).
  rewrite <- Ea, <- Eb, <- Ec, <- Ed. clearbody y. clear Ea Eb Ec Ed H0 H1. subst b0 b1.
  assert (0 <= y) by lia.
  rewrite !Z.quot_div_nonneg by lia.
  rewrite !date_digits_eq by (try apply Z.div_pos; lia).
  split.
  - intros [E0 E1]. assert (d <= 9) by lia. assert (c <= 9) by lia. assert (b <= 9) by lia. lia.
  - intros (A & B & C & D). lia.
Qed.

(** Decoding spells the digits; re-encoding is exact precisely for decimal dates. *)
Theorem C24_date_partial :
  forall b0 b1 b2 b3, byte_ok b0 -> byte_ok b1 -> byte_ok b2 -> byte_ok b3 ->
  exists r, unmarshal_date [b0; b1; b2; b3] = Ok r /\
    (append_date (Some r) = Ok [b0; b1; b2; b3] <-> all_decimal [b0; b1; b2; b3]) /\
    (forall y m d, spells [b0; b1] y -> spells [b2] m -> spells [b3] d ->
       date_year r = y /\ date_month r = m /\ date_day r = d).
Proof.
  intros b0 b1 b2 b3 H0 H1 H2 H3. eexists. split; [reflexivity|]. split.
  - cbn [nth]. rewrite date_append_eq by reflexivity.
    pose proof (year_bytes b0 b1 H0 H1) as Y. cbv zeta in Y.
    pose proof (date_byte b2 H2) as M. pose proof (date_byte b3 H3) as D.
    unfold all_decimal. rewrite !Forall_cons_iff.
    unfold decimal_byte, byte_ok in *. split.
    + intros E. injection E as E0 E1 E2 E3. destruct Y as [Y _].
      specialize (Y (conj E0 E1)). apply M in E2. apply D in E3.
      split; [lia|]. split; [lia|]. split; [lia|]. split; [lia|constructor].
    + intros (A0 & A1 & A2 & A3 & _). f_equal.
      destruct Y as [_ Y]. destruct Y as [Y0 Y1]; [lia|].
      rewrite Y0, Y1. repeat f_equal; [apply M|apply D]; lia.
  - cbn [nth]. intros y m d Sy Sm Sd.
    assert (B : forall l, Forall byte_ok l -> bytes_ok l) by auto.
    apply spells_iff in Sy as [_ Ey]; [|repeat constructor; apply H0 || apply H1].
    apply spells_iff in Sm as [_ Em]; [|repeat constructor; apply H2].
    apply spells_iff in Sd as [_ Ed]; [|repeat constructor; apply H3].
    cbn in Ey, Em, Ed. cbn [date_year date_month date_day]. lia.
Qed.
Print Assumptions C24_date_partial.

Theorem C24_month_year_partial :
  forall b0 b1, byte_ok b0 -> byte_ok b1 ->
  exists r, unmarshal_month_year [b0; b1] = Ok r /\
    (append_month_year (Some r) = Ok [b0; b1] <-> all_decimal [b0; b1]) /\
    (forall m y, spells [b0] m -> spells [b1] y -> 0 < m + y ->
       my_month r = m /\ my_year r = 2000 + y).
Proof.
  intros b0 b1 H0 H1. unfold unmarshal_month_year. cbn [length Nat.eqb guard bind].
  assert (B : bytes_ok [b0; b1]) by (repeat constructor; apply H0 || apply H1).
  unfold byte_ok in *.
  assert (A : forall m y, 0 <= m < 100 -> 0 <= y < 10000 ->
    append_month_year (Some (mkMY [b0; b1] m y)) =
    Ok [m / 10 * 16 + m mod 10; y mod 100 / 10 * 16 + y mod 10]).
  { intros m y Hm Hy. unfold append_month_year.
    cbn [odflt my_raw my_month my_year length Nat.ltb Nat.leb raw_canvas Nat.eqb bind].
    rewrite set2. unfold u8.
    rewrite (Z.rem_mod_nonneg y 100) by lia.
    rewrite !Z.quot_div_nonneg, !Z.rem_mod_nonneg, !lor_digits by lia.
    f_equal. f_equal; [lia|]. f_equal. lia. }
  unfold decode_bcd. cbn [length Nat.eqb].
  destruct (forallb (fun d => d <? 10) (nibbles [b0; b1])) eqn:F.
  - pose proof (decimal_digits_ok _ B F) as D. cbn in D.
    unfold digits_ok in D. rewrite !Forall_cons_iff in D. destruct D as (D0 & D1 & D2 & D3 & _).
    assert (V : dec_val (nibbles [b0; b1]) =
                b0 / 16 * 1000 + b0 mod 16 * 100 + b1 / 16 * 10 + b1 mod 16) by (cbn; lia).
    rewrite V. set (v := b0 / 16 * 1000 + b0 mod 16 * 100 + b1 / 16 * 10 + b1 mod 16).
    assert (Rv : 0 <= v <= 9999) by lia.
    destruct (Z.leb_spec v max_int64); [|unfold max_int64 in *; lia]. cbn [andb].
    assert (AD : all_decimal [b0; b1]) by (repeat constructor; lia).
    destruct (Z.ltb_spec 0 v).
    + eexists. split; [reflexivity|]. split.
      * rewrite A by lia. split; auto. intros _. f_equal. f_equal; [|f_equal]; lia.
      * intros m y Sm Sy _. cbn [my_month my_year].
        apply spells_iff in Sm as [_ Em]; [|repeat constructor; lia].
        apply spells_iff in Sy as [_ Ey]; [|repeat constructor; lia].
        cbn in Em, Ey. lia.
    + eexists. split; [reflexivity|]. assert (b0 = 0 /\ b1 = 0) as [-> ->] by lia. split.
      * rewrite A by lia. split; auto.
      * intros m y Sm Sy P. 
        apply spells_iff in Sm as [_ Em]; [|repeat constructor; lia].
        apply spells_iff in Sy as [_ Ey]; [|repeat constructor; lia].
        cbn in Em, Ey. lia.
  - cbn [andb]. eexists. split; [reflexivity|].
    assert (N : ~ all_decimal [b0; b1]).
    { intros AD. unfold all_decimal in AD. rewrite !Forall_cons_iff in AD.
      cbn [nibbles forallb] in F. rewrite !andb_false_iff, !Z.ltb_ge in F. lia. }
    split.
    + rewrite A by lia. split; [|tauto]. intros E. exfalso.
      change [0 / 10 * 16 + 0 mod 10; 0 mod 100 / 10 * 16 + 0 mod 10] with [0; 0] in E.
      injection E as <- <-. apply N. repeat constructor; lia.
    + intros m y Sm Sy _. exfalso. apply N.
      apply spells_iff in Sm as [Dm _]; [|repeat constructor; lia].
      apply spells_iff in Sy as [Dy _]; [|repeat constructor; lia].
      cbn in Dm, Dy. unfold digits_ok in *. rewrite !Forall_cons_iff in *.
      repeat constructor; lia.
Qed.
Print Assumptions C24_month_year_partial.

(** A date with a non-decimal digit is altered by a round trip. *)
Theorem C24_dates_refuted :
  (exists r, unmarshal_date [0x20; 0x24; 0x0A; 0x01] = Ok r /\
     append_date (Some r) = Ok [0x20; 0x24; 0x10; 0x01]) /\
  (exists r, unmarshal_month_year [0x0A; 0x24] = Ok r /\
     append_month_year (Some r) = Ok [0; 0]).
Proof. split; eexists; split; reflexivity. Qed.
Print Assumptions C24_dates_refuted.

Example C24_example :
  unmarshal_date [0x19; 0x87; 0x06; 0x05] =
    Ok (mkDate (Some [0x19; 0x87; 0x06; 0x05]) 1987 6 5) /\
  all_decimal [0x19; 0x87; 0x06; 0x05] /\ spells [0x19; 0x87] 1987 /\
  unmarshal_month_year [0x11; 0x24] = Ok (mkMY [0x11; 0x24] 11 2024).
Proof.
  repeat split; try (repeat constructor; simpl; lia).
  apply spells_iff; [repeat constructor; lia|]. split; [|reflexivity].
  repeat constructor; simpl; lia.
Qed.

(** * C25: card structure version *)

Theorem C25_csv_partial :
  (forall b0 b1, byte_ok b0 -> byte_ok b1 ->
     exists r, unmarshal_csv [b0; b1] = Ok r /\
       (append_csv (Some r) = Ok [b0; b1] <-> b0 mod 16 <= 9 /\ b1 mod 16 <= 9) /\
       (forall x y, spells [b0] x -> spells [b1] y -> csv_major r = x /\ csv_minor r = y)) /\
  (* among decimal versions the numbers identify the bytes *)
  (forall d d' r r', bytes_ok d -> bytes_ok d' -> all_decimal d -> all_decimal d' ->
     unmarshal_csv d = Ok r -> unmarshal_csv d' = Ok r' ->
     csv_major r = csv_major r' -> csv_minor r = csv_minor r' -> d = d').
Proof.
  split.
  - intros b0 b1 H0 H1. eexists. split; [reflexivity|]. split.
    + cbn [nth append_csv odflt csv_raw raw_canvas length Nat.eqb bind csv_major csv_minor].
      change (set_byte (set_byte [b0; b1] 0 (bcd2 (b0 / 16 * 10 + b0 mod 16))) 1
               (bcd2 (b1 / 16 * 10 + b1 mod 16)))
        with [bcd2 (b0 / 16 * 10 + b0 mod 16); bcd2 (b1 / 16 * 10 + b1 mod 16)].
      pose proof (csv_byte b0 H0) as A. pose proof (csv_byte b1 H1) as B. split.
      * intros E. injection E as E0 E1. apply A in E0. apply B in E1. lia.
      * intros [C D]. f_equal. f_equal; [|f_equal]; [apply A|apply B]; lia.
    + cbn [nth csv_major csv_minor]. intros x y Sx Sy.
      apply spells_iff in Sx as [_ Ex]; [|repeat constructor; apply H0].
      apply spells_iff in Sy as [_ Ey]; [|repeat constructor; apply H1].
      cbn in Ex, Ey. lia.
  - intros d d' r r' B B' D D' U U' E1 E2.
    unfold unmarshal_csv in U, U'. inv_bind U. inv_bind U'. inv_ok. cbn [csv_major csv_minor] in *.
    apply Nat.eqb_eq in E, E0.
    destruct d as [|x [|y [|]]]; simpl in E; try lia.
    destruct d' as [|x' [|y' [|]]]; simpl in E0; try lia.
    cbn [nth] in *. unfold bytes_ok, byte_ok, all_decimal in *.
    rewrite !Forall_cons_iff in *. f_equal; [lia|]. f_equal. lia.
Qed.
Print Assumptions C25_csv_partial.

Theorem C25_csv_refuted :
  exists b r, bytes_ok b /\ unmarshal_csv b = Ok r /\ append_csv (Some r) <> Ok b.
Proof.
  exists [0x0A; 0x00], (mkCsv (Some [0x0A; 0x00]) 10 0).
  repeat split; [repeat constructor; lia|]. intros E. vm_compute in E. discriminate.
Qed.
Print Assumptions C25_csv_refuted.

Example C25_example :
  unmarshal_csv [0x01; 0x01] = Ok (mkCsv (Some [1; 1]) 1 1) /\
  append_csv (Some (mkCsv (Some [1; 1]) 1 1)) = Ok [1; 1] /\
  append_csv (Some (mkCsv None 12 7)) = Ok [0x12; 7].
Proof. repeat split. Qed.

(** * C26: enumerations *)

(** Specification: a table is a partial one-to-one map between values and codes. *)
Theorem C26_enum_correspondence :
  forall T, In T all_enum_tables ->
  (forall code v, unmarshal_enum T code = Ok v <-> marshal_enum T v = Ok code) /\
  (forall code, (exists v, unmarshal_enum T code = Ok v) <-> (exists v, In (v, Some code) T)) /\
  (forall code, (exists e, unmarshal_enum T code = Err e) <-> ~ exists v, In (v, Some code) T) /\
  (forall v, (exists e, marshal_enum T v = Err e) <-> ~ exists code, In (v, Some code) T) /\
  (forall v code, In (v, Some code) T -> byte_ok code) /\
  (forall v1 v2 code, unmarshal_enum T code = Ok v1 -> In (v2, Some code) T -> v1 = v2).
Proof.
  intros T HT. pose proof all_enum_tables_wf as W. rewrite forallb_forall in W.
  specialize (W T HT).
  split; [|split; [|split; [|split; [|split]]]].
  - intros code v. rewrite unmarshal_enum_iff, marshal_enum_iff by auto. tauto.
  - intros code. split; intros [v H]; exists v; now apply unmarshal_enum_iff.
  - intros code. split.
    + intros [e E] [v H]. apply (unmarshal_enum_iff T) in H; auto. congruence.
    + intros H. destruct (unmarshal_enum T code) as [v|e|] eqn:E; eauto.
      * exfalso. apply H. exists v. now apply unmarshal_enum_iff.
      * now apply unmarshal_enum_no_panic in E.
  - intros v. split.
    + intros [e E] [c H]. apply (marshal_enum_iff T) in H; auto. congruence.
    + intros H. destruct (marshal_enum T v) as [c|e|] eqn:E; eauto.
      * exfalso. apply H. exists c. now apply marshal_enum_iff.
      * now apply marshal_enum_no_panic in E.
  - intros v code H. eapply enum_wf_range; eauto.
  - intros v1 v2 code H1 H2. apply (unmarshal_enum_iff T) in H2; auto. congruence.
Qed.
Print Assumptions C26_enum_correspondence.

(** The tables are not trivial: nation codes 1..50 are all known, 51 is not, and
    255 (no information) is. *)
Example C26_example :
  unmarshal_enum nation_numeric_table 13 = Ok 16 /\ marshal_enum nation_numeric_table 16 = Ok 13 /\
  unmarshal_enum nation_numeric_table 51 = fail /\ unmarshal_enum nation_numeric_table 255 = Ok 3 /\
  unmarshal_enum event_fault_type_table 0x40 = Ok 48 /\
  forallb (fun c => is_ok (unmarshal_enum nation_numeric_table c)) (map (Z.add 1) (zrange 50)) = true /\
  length all_enum_tables = 17%nat.
Proof. repeat split. Qed.

(** * C27: coordinates (the GNSS records are in Props_Records) *)

Lemma read_int24_eq b0 b1 b2 :
  byte_ok b0 -> byte_ok b1 -> byte_ok b2 ->
  read_int24 [b0; b1; b2] =
  b0 * 2 ^ 16 + b1 * 2 ^ 8 + b2 - (if 128 <=? b0 then 2 ^ 24 else 0).
Proof.
  intros H0 H1 H2. unfold read_int24.
  assert (E : be [b0; b1; b2] = b0 * 2 ^ 16 + b1 * 2 ^ 8 + b2) by (unfold be; cbn [be_acc]; lia).
  rewrite E. set (v := b0 * 2 ^ 16 + b1 * 2 ^ 8 + b2). unfold byte_ok in *.
  change (2 ^ 16) with 65536 in *. change (2 ^ 8) with 256 in *. change (2 ^ 24) with 16777216.
  assert (R : 0 <= v < 16777216) by lia.
  rewrite (testbit_top v 23) by lia. change (2 ^ 23) with 8388608.
  destruct (Z.leb_spec 8388608 v); destruct (Z.leb_spec 128 b0); try lia.
  change 4278190080 with (255 * 2 ^ 24). rewrite lor_low_high by lia.
  unfold s32. change (2 ^ 24) with 16777216.
  destruct (Z.ltb_spec ((v + 255 * 16777216) mod 4294967296) 2147483648); lia.
Qed.

Lemma append_int24_eq v : append_int24 v = to_be 3 v.
Proof.
  unfold append_int24, to_be, u8. rewrite !Z.shiftr_div_pow2 by lia. cbn [app].
  change (2 ^ 16) with (256 * 256). change (2 ^ 8) with 256.
  rewrite Z.div_div by lia. reflexivity.
Qed.

Lemma int24_round_trip d : bytes_ok d -> length d = 3%nat -> append_int24 (read_int24 d) = d.
Proof.
  intros H L. destruct d as [|b0 [|b1 [|b2 [|]]]]; simpl in L; try lia.
  unfold bytes_ok in H. rewrite !Forall_cons_iff in H. destruct H as (H0 & H1 & H2 & _).
  rewrite read_int24_eq, append_int24_eq by auto. unfold to_be, byte_ok in *. cbn [app].
  change (2 ^ 16) with 65536. change (2 ^ 8) with 256. change (2 ^ 24) with 16777216.
  destruct (128 <=? b0); repeat f_equal; lia.
Qed.

Lemma geo_round_trip d g :
  bytes_ok d -> length d = 6%nat -> unmarshal_geo d = Ok g -> append_geo (Some g) = d.
Proof.
  intros H L U. unfold unmarshal_geo in U. rewrite L in U. simpl in U. injection U as <-.
  unfold append_geo. cbn [odflt geo_latitude geo_longitude].
  rewrite !int24_round_trip; auto using bytes_ok_sub; try (apply sub_length; lia).
  rewrite sub_join by reflexivity. apply sub_whole. exact L.
Qed.

(** Specification: two's complement in three bytes. *)
Definition signed24 (b0 b1 b2 : Z) : Z :=
  let u := b0 * 65536 + b1 * 256 + b2 in if u <? 8388608 then u else u - 16777216.

Theorem C27_geo_round_trip :
  (forall b0 b1 b2 b3 b4 b5, bytes_ok [b0; b1; b2; b3; b4; b5] ->
     let g := mkGeo (signed24 b0 b1 b2) (signed24 b3 b4 b5) in
     unmarshal_geo [b0; b1; b2; b3; b4; b5] = Ok g /\
     append_geo (Some g) = [b0; b1; b2; b3; b4; b5]) /\
  (forall lat lon, -8388608 <= lat < 8388608 -> -8388608 <= lon < 8388608 ->
     unmarshal_geo (append_geo (Some (mkGeo lat lon))) = Ok (mkGeo lat lon)) /\
  (forall d, length d <> 6%nat -> exists e, unmarshal_geo d = Err e).
Proof.
  assert (A : forall b0 b1 b2, byte_ok b0 -> byte_ok b1 -> byte_ok b2 ->
    read_int24 [b0; b1; b2] = signed24 b0 b1 b2).
  { intros. rewrite read_int24_eq by auto. unfold signed24, byte_ok in *.
    change (2 ^ 16) with 65536. change (2 ^ 8) with 256. change (2 ^ 24) with 16777216.
    destruct (Z.leb_spec 128 b0); destruct (Z.ltb_spec (b0 * 65536 + b1 * 256 + b2) 8388608); lia. }
  split; [|split].
  - intros b0 b1 b2 b3 b4 b5 H g.
    assert (U : unmarshal_geo [b0; b1; b2; b3; b4; b5] = Ok g).
    { unfold bytes_ok in H. rewrite !Forall_cons_iff in H. destruct H as (?&?&?&?&?&?&_).
      unfold unmarshal_geo. cbn [length Nat.eqb guard bind sub skipn firstn].
      rewrite !A by auto. reflexivity. }
    split; auto. apply geo_round_trip; auto.
  - intros lat lon Ha Ho. unfold append_geo. cbn [odflt geo_latitude geo_longitude].
    unfold unmarshal_geo, append_int24. cbn [app length Nat.eqb guard bind sub skipn firstn].
    assert (R : forall v, -8388608 <= v < 8388608 ->
      read_int24 [u8 (Z.shiftr v 16); u8 (Z.shiftr v 8); u8 v] = v).
    { intros v Hv. rewrite A by (unfold byte_ok, u8; lia).
      unfold u8, signed24. rewrite !Z.shiftr_div_pow2 by lia.
      change (2 ^ 16) with 65536. change (2 ^ 8) with 256.
      destruct (Z.ltb_spec ((v / 65536) mod 256 * 65536 + (v / 256) mod 256 * 256 + v mod 256) 8388608); lia. }
    rewrite !R by auto. reflexivity.
  - intros d H. exists EOther. unfold unmarshal_geo.
    destruct (Nat.eqb_spec (length d) 6); [contradiction|reflexivity].
Qed.
Print Assumptions C27_geo_round_trip.

Example C27_example :
  unmarshal_geo [0xFF; 0xFF; 0xFE; 0x00; 0xE0; 0x1B] = Ok (mkGeo (-2) 57371) /\
  append_geo (Some (mkGeo (-2) 57371)) = [0xFF; 0xFF; 0xFE; 0x00; 0xE0; 0x1B].
Proof. split; reflexivity. Qed.

(** * C32: activity changes *)

(** Specification: the 16 bits "scpaattttttttttt". *)
Definition activity_bits (slot crew out act minutes : Z) : Z :=
  slot * 32768 + crew * 16384 + out * 8192 + act * 2048 + minutes.

Theorem C32_activity_change_round_trip :
  (forall b0 b1, byte_ok b0 -> byte_ok b1 ->
     exists r, unmarshal_activity_change [b0; b1] = Ok r /\
       append_activity_change r = Ok [b0; b1]) /\
  (forall s c o a m, (s = 0 \/ s = 1) -> (c = 0 \/ c = 1) -> (o = 0 \/ o = 1) ->
     0 <= a < 4 -> 0 <= m < 2048 ->
     let w := activity_bits s c o a m in
     exists raw, unmarshal_activity_change [w / 256; w mod 256] =
       Ok (mkAC raw (s + 2) (c =? 1) (o =? 0) (a + 2) m)) /\
  (forall d d' r r', bytes_ok d -> bytes_ok d' ->
     unmarshal_activity_change d = Ok r -> unmarshal_activity_change d' = Ok r' ->
     ac_slot r = ac_slot r' -> ac_crew r = ac_crew r' -> ac_inserted r = ac_inserted r' ->
     ac_activity r = ac_activity r' -> ac_minutes r = ac_minutes r' -> d = d').
Proof.
  assert (D : forall b0 b1, byte_ok b0 -> byte_ok b1 ->
    let v := b0 * 256 + b1 in
    unmarshal_activity_change [b0; b1] =
      Ok (mkAC (Some [b0; b1]) (v / 32768 + 2) (v / 16384 mod 2 =? 1) (v / 8192 mod 2 =? 0)
               (v / 2048 mod 4 + 2) (v mod 2048))).
  { intros b0 b1 H0 H1 v. unfold unmarshal_activity_change. cbn [length Nat.eqb guard bind].
    change (be [b0; b1]) with v. unfold byte_ok in *.
    assert (S : v / 32768 mod 2 = 0 \/ v / 32768 mod 2 = 1) by lia.
    assert (A : unmarshal_enum card_slot_number_table (v / 32768 mod 2) = Ok (v / 32768 + 2)).
    { replace (v / 32768) with (v / 32768 mod 2) at 2 by lia.
      destruct S as [-> | ->]; reflexivity. }
    assert (B : unmarshal_enum driver_activity_value_table (v / 2048 mod 4) = Ok (v / 2048 mod 4 + 2)).
    { assert (Q : v / 2048 mod 4 = 0 \/ v / 2048 mod 4 = 1 \/ v / 2048 mod 4 = 2 \/ v / 2048 mod 4 = 3) by lia.
      destruct Q as [-> | [-> | [-> | ->]]]; reflexivity. }
    rewrite A, B. reflexivity. }
  split; [|split].
  - intros b0 b1 H0 H1. eexists. split; [apply D; auto|].
    unfold append_activity_change. cbn [ac_raw ac_slot ac_crew ac_inserted ac_activity ac_minutes].
    set (v := b0 * 256 + b1). unfold byte_ok in *.
    cbn [raw_canvas length Nat.eqb bind].
    assert (A : marshal_enum card_slot_number_table (v / 32768 + 2) = Ok (v / 32768)).
    { assert (Q : v / 32768 = 0 \/ v / 32768 = 1) by lia. destruct Q as [-> | ->]; reflexivity. }
    assert (B : marshal_enum driver_activity_value_table (v / 2048 mod 4 + 2) = Ok (v / 2048 mod 4)).
    { assert (Q : v / 2048 mod 4 = 0 \/ v / 2048 mod 4 = 1 \/ v / 2048 mod 4 = 2 \/ v / 2048 mod 4 = 3) by lia.
      destruct Q as [-> | [-> | [-> | ->]]]; reflexivity. }
    rewrite A, B. cbn [bind]. f_equal.
    replace (v / 32768 mod 2 * 32768 + (if v / 16384 mod 2 =? 1 then 16384 else 0) +
             (if v / 8192 mod 2 =? 0 then 0 else 8192) + v / 2048 mod 4 mod 4 * 2048 +
             u16 (v mod 2048) mod 2048) with v.
    + change v with (be [b0; b1]). apply to_be_be; [repeat constructor; lia|reflexivity].
    + unfold u16. destruct (Z.eqb_spec (v / 16384 mod 2) 1); destruct (Z.eqb_spec (v / 8192 mod 2) 0); lia.
  - intros s c o a m Hs Hc Ho Ha Hm w. unfold w, activity_bits.
    set (x := s * 32768 + c * 16384 + o * 8192 + a * 2048 + m).
    assert (0 <= x < 65536) by (unfold x; lia).
    eexists. rewrite D by (unfold byte_ok; lia). cbv zeta.
    replace (x / 256 * 256 + x mod 256) with x by lia.
    replace (x / 32768) with s by (unfold x; lia).
    replace (x / 16384 mod 2) with c by (unfold x; lia).
    replace (x / 8192 mod 2) with o by (unfold x; lia).
    replace (x / 2048 mod 4) with a by (unfold x; lia).
    replace (x mod 2048) with m by (unfold x; lia). reflexivity.
  - intros d d' r r' B B' U U' E1 E2 E3 E4 E5.
    assert (L : length d = 2%nat).
    { unfold unmarshal_activity_change in U. inv_bind U. inv_ok. lia. }
    assert (L' : length d' = 2%nat).
    { unfold unmarshal_activity_change in U'. inv_bind U'. inv_ok. lia. }
    destruct d as [|x [|y [|]]]; simpl in L; try lia.
    destruct d' as [|x' [|y' [|]]]; simpl in L'; try lia.
    unfold bytes_ok in *. rewrite !Forall_cons_iff in *.
    rewrite D in U, U' by tauto. cbv zeta in *. apply Ok_inj in U, U'. subst r r'.
    cbn [ac_slot ac_crew ac_inserted ac_activity ac_minutes] in *. unfold byte_ok in *.
    assert (x * 256 + y = x' * 256 + y') by lia. f_equal; [lia|f_equal; lia].
Qed.
Print Assumptions C32_activity_change_round_trip.

Example C32_example :
  unmarshal_activity_change [0x18; 0x78] =
    Ok (mkAC (Some [0x18; 0x78]) 2 false true 5 120) /\
  activity_bits 1 0 1 2 600 = 0xB258.
Proof. split; reflexivity. Qed.

(** * C33: control types *)

Lemma control_type_sweep : forallb (fun b =>
   match unmarshal_control_type [b] with
   | Ok r => match append_control_type (Some r) with Ok [c] => c =? b | _ => false end
   | _ => false end) (zrange 256) = true.
Proof. vm_compute. reflexivity. Qed.

Lemma control_type_round_trip b :
  byte_ok b -> exists r, unmarshal_control_type [b] = Ok r /\ append_control_type (Some r) = Ok [b].
Proof.
  intros H. pose proof (sweep _ _ control_type_sweep b H) as S. cbv beta in S.
  destruct (unmarshal_control_type [b]) as [r| |]; try discriminate. exists r; split; auto.
  destruct (append_control_type (Some r)) as [[|c [|]]| |]; try discriminate.
  apply Z.eqb_eq in S; subst; reflexivity.
Qed.

(** Setting a flag in an already decoded control type cannot be undone: the
    encoder only ever sets bits. *)
Theorem C33_control_type_round_trip :
  (forall b, byte_ok b ->
     exists r, unmarshal_control_type [b] = Ok r /\ append_control_type (Some r) = Ok [b] /\
       ct_card_downloading r = (128 <=? b) /\ ct_vu_downloading r = (64 <=? b mod 128) /\
       ct_printing r = (32 <=? b mod 64) /\ ct_display r = (16 <=? b mod 32) /\
       ct_calibration_checking r = (8 <=? b mod 16)) /\
  (* flags without raw data: each flag is its own bit and survives *)
  (forall f1 f2 f3 f4 f5 : bool,
     exists b r, append_control_type (Some (mkCT None f1 f2 f3 f4 f5)) = Ok [b] /\ byte_ok b /\
       b mod 8 = 0 /\ unmarshal_control_type [b] = Ok r /\
       (ct_card_downloading r, ct_vu_downloading r, ct_printing r, ct_display r,
        ct_calibration_checking r) = (f1, f2, f3, f4, f5)).
Proof.
  split.
  - intros b H.
    assert (S : forallb (fun b =>
      match unmarshal_control_type [b] with
      | Ok r => Bool.eqb (ct_card_downloading r) (128 <=? b) &&
                Bool.eqb (ct_vu_downloading r) (64 <=? b mod 128) &&
                Bool.eqb (ct_printing r) (32 <=? b mod 64) &&
                Bool.eqb (ct_display r) (16 <=? b mod 32) &&
                Bool.eqb (ct_calibration_checking r) (8 <=? b mod 16)
      | _ => false end) (zrange 256) = true) by (vm_compute; reflexivity).
    pose proof (sweep _ _ S b H) as S1. cbv beta in S1.
    destruct (control_type_round_trip b H) as (r & U & A). rewrite U in S1.
    exists r. rewrite !andb_true_iff in S1. destruct S1 as ((((S1 & S2) & S3) & S4) & S5).
    apply Bool.eqb_prop in S1, S2, S3, S4, S5. auto 10.
  - intros f1 f2 f3 f4 f5.
    destruct f1, f2, f3, f4, f5; eexists; eexists; repeat split; try reflexivity;
      unfold byte_ok; vm_compute; auto; discriminate.
Qed.
Print Assumptions C33_control_type_round_trip.

Example C33_example :
  unmarshal_control_type [0xA5] =
    Ok (mkCT (Some [0xA5]) true false true false false) /\
  append_control_type (Some (mkCT (Some [0xA5]) true false true false false)) = Ok [0xA5].
Proof. split; reflexivity. Qed.
