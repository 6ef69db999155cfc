(** Card framing, independently of the scanner's buffer. *)

From Verif Require Import Base Chunks Scanner P_Scanner RawTypes RawCard.

(** A card record as written by a card reader: file identifier, appendix byte,
    value; and its encoding. *)
Record tlv := mkTlv { t_fid : Z; t_app : Z; t_val : bytes }.

Definition t_len (t : tlv) : Z := Z.of_nat (length (t_val t)).

Definition tlv_ok (t : tlv) : Prop :=
  0 <= t_fid t < 65536 /\ byte_ok (t_app t) /\ bytes_ok (t_val t) /\
  t_len t <= 65535.

Definition enc (t : tlv) : bytes :=
  [t_fid t / 256; t_fid t mod 256; t_app t; t_len t / 256; t_len t mod 256] ++ t_val t.

Definition encs (ts : list tlv) : bytes := concat (map enc ts).

(** What the parser should report for it. *)
Definition expected (t : tlv) : raw_record :=
  mkRR (t_fid t * 256 + t_app t) (map_fid (t_fid t))
    (if Z.odd (t_app t / 2) then 2 else 1) (if Z.odd (t_app t) then 2 else 1)
    (t_len t) (t_val t).

Lemma enc_length t : length (enc t) = (5 + length (t_val t))%nat.
Proof. reflexivity. Qed.

Lemma enc_ok t : tlv_ok t -> bytes_ok (enc t).
Proof.
  intros (F & A & V & L). unfold enc, t_len. apply bytes_ok_app. split; auto.
  unfold t_len in L. rewrite !bytes_ok_cons. unfold byte_ok in *.
  repeat split; try lia. constructor.
Qed.

Lemma scan_card_stable : stable scan_card_file.
Proof.
  constructor; unfold scan_card_file.
  - intros w b n. destruct (Nat.ltb_spec (length w) 5).
    + destruct b; [destruct (_ =? _)%nat|]; discriminate.
    + destruct (Nat.ltb_spec (length w) (5 + Z.to_nat (be (sub w 3 2)))).
      * destruct b; discriminate.
      * intros E. injection E as <-. lia.
  - intros w n x b. destruct (Nat.ltb_spec (length w) 5); [discriminate|].
    rewrite app_length. destruct (Nat.ltb_spec (length w + length x) 5); [lia|].
    assert (S : sub (w ++ x) 3 2 = sub w 3 2).
    { unfold sub. rewrite skipn_app. replace (3 - length w)%nat with 0%nat by lia. rewrite skipn_O.
      apply firstn_prefix_le. rewrite skipn_length. lia. }
    rewrite S. destruct (Nat.ltb_spec (length w) (5 + Z.to_nat (be (sub w 3 2)))); [discriminate|].
    intros E. injection E as <-. destruct (Nat.ltb_spec (length w + length x) (5 + Z.to_nat (be (sub w 3 2))));
      [lia|reflexivity].
  - intros w e x b. destruct (Nat.ltb_spec (length w) 5); [discriminate|].
    destruct (_ <? _)%nat; discriminate.
Qed.

(** Fuel above the length of the data does not matter. *)
Lemma ideal_fuel split : stable split ->
  forall k k' d, (length d < k)%nat -> (length d < k')%nat -> ideal k split d = ideal k' split d.
Proof.
  intros ST. induction k as [|k IH]; intros k' d L L'; [lia|]. destruct k' as [|k']; [lia|].
  cbn [ideal]. destruct (split _ _) as [|n|e] eqn:S; auto.
  pose proof (st_tok _ ST _ _ _ S) as N. rewrite firstn_length in N.
  rewrite (IH k' (skipn n d)) by (rewrite skipn_length; lia). reflexivity.
Qed.

(** One record in front. *)
Lemma be_len n : 0 <= n < 65536 -> be [n / 256; n mod 256] = n.
Proof. intros. unfold be. cbn [be_acc]. lia. Qed.

Lemma enc_len_field t x : tlv_ok t -> be (sub (enc t ++ x) 3 2) = t_len t.
Proof.
  intros (_ & _ & _ & L). unfold enc. cbn [app]. unfold sub. cbn [skipn firstn].
  apply be_len. unfold t_len in *. lia.
Qed.

Lemma ideal_enc k t d : tlv_ok t -> t_len t <= 65531 ->
  ideal (S k) scan_card_file (enc t ++ d) =
  (enc t :: fst (ideal k scan_card_file d), snd (ideal k scan_card_file d)).
Proof.
  intros T L. cbn [ideal].
  assert (M : (length (enc t) <= max_token_size)%nat).
  { pose proof max_eq. rewrite enc_length. unfold t_len in L. lia. }
  assert (S : forall b, scan_card_file (firstn max_token_size (enc t ++ d)) b = STok (length (enc t))).
  { intros b. rewrite firstn_prefix by lia. set (x := firstn _ d).
    unfold scan_card_file. rewrite app_length, enc_length.
    destruct (Nat.ltb_spec (5 + length (t_val t) + length x) 5); [lia|].
    rewrite enc_len_field by auto. unfold t_len. rewrite Nat2Z.id.
    destruct (Nat.ltb_spec (5 + length (t_val t) + length x) (5 + length (t_val t))); [lia|].
    reflexivity. }
  rewrite S. cbv zeta. rewrite firstn_prefix_le, firstn_all by lia.
  rewrite skipn_prefix, skipn_all by lia. reflexivity.
Qed.

(** What cannot be split off any further. *)
Definition stuck (d : bytes) : Prop :=
  (length d < 5)%nat \/ (length d < 5 + Z.to_nat (be (sub d 3 2)))%nat \/ 65532 <= be (sub d 3 2).

Definition outcome (d : bytes) : res unit :=
  match d with
  | [] => Ok tt
  | _ => if (length d <? max_token_size)%nat then Err EEOF else Err ETooLong
  end.

Lemma ideal_stuck k d : (length d < k)%nat -> stuck d -> ideal k scan_card_file d = ([], outcome d).
Proof.
  intros K ST. destruct k as [|k]; [lia|]. cbn [ideal]. pose proof max_eq as MX.
  destruct (Nat.ltb_spec (length d) max_token_size) as [H|H].
  - rewrite firstn_all2 by lia. unfold scan_card_file.
    destruct (Nat.ltb_spec (length d) 5).
    + destruct d as [|b d]; [reflexivity|]. cbn [length Nat.eqb]. unfold outcome.
      cbn [length] in *. destruct (Nat.ltb_spec (S (length d)) max_token_size); [reflexivity|lia].
    + destruct (Nat.ltb_spec (length d) (5 + Z.to_nat (be (sub d 3 2)))).
      * unfold outcome. destruct d; [simpl in *; lia|].
        destruct (Nat.ltb_spec (length (z :: d)) max_token_size); [reflexivity|lia].
      * destruct ST as [ST|[ST|ST]]; lia.
  - set (w := firstn max_token_size d).
    assert (W : length w = max_token_size) by (unfold w; rewrite firstn_length; lia).
    assert (E : sub w 3 2 = sub d 3 2).
    { unfold w. rewrite <- (firstn_skipn max_token_size d) at 2. unfold sub.
      rewrite skipn_app. replace (3 - length (firstn max_token_size d))%nat with 0%nat by (unfold w in W; lia).
      rewrite skipn_O. rewrite firstn_prefix_le; auto. rewrite skipn_length. unfold w in W. lia. }
    unfold scan_card_file. rewrite W, E.
    destruct (Nat.ltb_spec max_token_size 5); [lia|].
    destruct (Nat.ltb_spec max_token_size (5 + Z.to_nat (be (sub d 3 2)))).
    + unfold outcome. destruct d; [simpl in *; lia|].
      destruct (Nat.ltb_spec (length (z :: d)) max_token_size); [lia|]. reflexivity.
    + destruct ST as [ST|[ST|ST]]; lia.
Qed.

(** Scanning a sequence of records followed by something that is none. *)
Lemma scan_card_spec ts d :
  Forall (fun t => tlv_ok t /\ t_len t <= 65531) ts -> stuck d ->
  exists toks s, scan scan_card_file (encs ts ++ d) = (toks, outcome d, s) /\
    map tok_bytes toks = map enc ts.
Proof.
  intros F S.
  assert (I : forall k, (length (encs ts ++ d) < k)%nat ->
              ideal k scan_card_file (encs ts ++ d) = (map enc ts, outcome d)).
  { induction F as [|t ts [T L] F IH]; intros k K.
    - apply ideal_stuck; auto.
    - unfold encs in *. cbn [map concat] in *. rewrite <- app_assoc in *.
      destruct k as [|k]; [lia|]. rewrite ideal_enc by auto.
      rewrite (IH k); [reflexivity|]. rewrite app_length in K.
      pose proof (enc_length t). lia. }
  pose proof (scan_spec scan_card_file (encs ts ++ d) scan_card_stable) as SC.
  rewrite I in SC by lia. destruct (scan scan_card_file (encs ts ++ d)) as [[toks r] s].
  cbn [fst snd] in SC. injection SC as <- <-. eauto.
Qed.

(** Every byte string is of that form. *)
Lemma encs_decompose n : forall d, (length d <= n)%nat -> bytes_ok d ->
  exists ts d', d = encs ts ++ d' /\
    Forall (fun t => tlv_ok t /\ t_len t <= 65531) ts /\ stuck d'.
Proof.
  induction n as [|n IH]; intros d L B.
  - exists [], d. split; [reflexivity|]. split; [constructor|]. left. lia.
  - destruct (Nat.lt_ge_cases (length d) 5) as [H|H].
    { exists [], d. split; [reflexivity|]. split; [constructor|]. left. auto. }
    destruct d as [|f1 [|f2 [|a [|l1 [|l2 d]]]]]; try (simpl in H; lia). clear H.
    rewrite !bytes_ok_cons in B. destruct B as (F1 & F2 & A & L1 & L2 & B).
    unfold byte_ok in *.
    assert (E : be (sub (f1 :: f2 :: a :: l1 :: l2 :: d) 3 2) = l1 * 256 + l2).
    { unfold sub, be. cbn [skipn firstn be_acc]. lia. }
    destruct (Z.lt_ge_cases (Z.of_nat (length d)) (l1 * 256 + l2)) as [H|H].
    { exists [], (f1 :: f2 :: a :: l1 :: l2 :: d). split; [reflexivity|]. split; [constructor|].
      right. left. rewrite E. cbn [length]. lia. }
    destruct (Z.le_gt_cases 65532 (l1 * 256 + l2)) as [H1|H1].
    { exists [], (f1 :: f2 :: a :: l1 :: l2 :: d). split; [reflexivity|]. split; [constructor|].
      right. right. rewrite E. auto. }
    set (k := Z.to_nat (l1 * 256 + l2)).
    destruct (IH (skipn k d)) as (ts & d' & D & F & S).
    { rewrite skipn_length. cbn [length] in L. lia. }
    { apply bytes_ok_skipn; auto. }
    set (t := mkTlv (f1 * 256 + f2) a (firstn k d)).
    assert (LV : length (t_val t) = k) by (cbn [t t_val]; rewrite firstn_length; lia).
    exists (t :: ts), d'. split; [|split; auto].
    + unfold encs in *. cbn [map concat]. rewrite <- app_assoc, <- D. unfold enc, t_len. rewrite LV.
      cbn [t t_fid t_app t_val]. rewrite <- app_assoc, firstn_skipn.
      unfold k. rewrite Z2Nat.id by lia. cbn [app].
      replace ((f1 * 256 + f2) / 256) with f1 by lia. replace ((f1 * 256 + f2) mod 256) with f2 by lia.
      replace ((l1 * 256 + l2) / 256) with l1 by lia. replace ((l1 * 256 + l2) mod 256) with l2 by lia.
      reflexivity.
    + constructor; auto. unfold tlv_ok, t_len. rewrite LV. cbn [t t_fid t_app t_val]. unfold byte_ok.
      repeat split; try lia. apply bytes_ok_firstn; auto.
Qed.

(** ** Records *)

Lemma land_odd a : negb (Z.land a 1 =? 0) = Z.odd a.
Proof.
  change 1 with (Z.ones 1). rewrite Z.land_ones by lia. change (2 ^ 1) with 2.
  rewrite Zmod_odd. destruct (Z.odd a); reflexivity.
Qed.

Lemma land_odd2 a : negb (Z.land a 2 =? 0) = Z.odd (a / 2).
Proof.
  rewrite <- Z.bit0_odd. change (a / 2) with (a / 2 ^ 1). rewrite <- Z.shiftr_div_pow2 by lia.
  rewrite Z.shiftr_spec by lia. cbn [Z.add].
  destruct (Z.testbit a 1) eqn:T.
  - destruct (Z.eqb_spec (Z.land a 2) 0) as [E|E]; auto.
    assert (X : Z.testbit (Z.land a 2) 1 = true) by (rewrite Z.land_spec, T; reflexivity).
    rewrite E in X. discriminate.
  - destruct (Z.eqb_spec (Z.land a 2) 0) as [E|E]; auto. exfalso. apply E.
    apply Z.bits_inj'. intros n N. rewrite Z.land_spec, Z.bits_0.
    change 2 with (2 ^ 1). rewrite Z.pow2_bits_eqb by lia.
    destruct (Z.eqb_spec 1 n) as [<-|]; [rewrite T; reflexivity|apply andb_false_r].
Qed.

Lemma tag_lor f a : byte_ok a -> Z.lor (Z.shiftl f 8) a = f * 256 + a.
Proof.
  intros A. unfold byte_ok in A. rewrite Z.shiftl_mul_pow2 by lia.
  rewrite Z.lor_comm, lor_low_high by lia. lia.
Qed.

Lemma unmarshal_enc t : tlv_ok t ->
  unmarshal_raw_record (enc t) =
  if t_len t <=? 65530 then Ok (expected t) else Panic.
Proof.
  intros T. pose proof T as (F & A & V & L). unfold unmarshal_raw_record.
  assert (LF : be (sub (enc t) 3 2) = t_len t).
  { rewrite <- (app_nil_r (enc t)). apply enc_len_field; auto. }
  rewrite LF. cbv zeta.
  change (be (sub (enc t) 0 2)) with (be [t_fid t / 256; t_fid t mod 256]).
  rewrite be_len by auto. change (nth 2 (enc t) 0) with (t_app t).
  destruct (Z.leb_spec (t_len t) 65530) as [H|H].
  - rewrite slice_ok; [|unfold u16, t_len in *; lia|rewrite enc_length; unfold u16, t_len in *; lia].
    cbn [bind]. unfold expected. rewrite tag_lor, land_odd, land_odd2 by auto.
    f_equal. f_equal.
    assert (S : sub (enc t) 5 (Z.to_nat (u16 (5 + t_len t)) - 5) = t_val t).
    { replace (Z.to_nat (u16 (5 + t_len t)) - 5)%nat with (length (t_val t)) by (unfold u16, t_len in *; lia).
      unfold enc, sub. cbn [app skipn]. apply firstn_all. }
    rewrite S. apply pad_copy_exact. unfold t_len. lia.
  - unfold slice. destruct (Nat.leb_spec 5 (Z.to_nat (u16 (5 + t_len t)))) as [X|X].
    + exfalso. unfold u16, t_len in *. lia.
    + reflexivity.
Qed.

Lemma append_expected t : tlv_ok t -> append_raw_record (expected t) = enc t.
Proof.
  intros (F & A & V & L). unfold byte_ok in A. unfold append_raw_record, expected.
  cbn [rr_tag rr_length rr_value].
  assert (S : Z.shiftr (t_fid t * 256 + t_app t) 8 = t_fid t).
  { rewrite Z.shiftr_div_pow2 by lia. change (2 ^ 8) with 256. lia. }
  assert (M : Z.land (t_fid t * 256 + t_app t) 255 = t_app t).
  { change 255 with (Z.ones 8). rewrite Z.land_ones by lia. change (2 ^ 8) with 256. lia. }
  rewrite S, M. unfold enc, u8, u16, t_len.
  assert (B : forall v, 0 <= v < 65536 -> to_be 2 (v mod 65536) = [v / 256; v mod 256]).
  { intros v H. cbv [to_be app]. rewrite (Z.mod_small v 65536) by auto. f_equal. lia. }
  rewrite !B by (unfold t_len in *; lia). rewrite (Z.mod_small (t_app t)) by lia. reflexivity.
Qed.

(** ** Files *)

Definition small (t : tlv) : Prop := t_len t <= 65530.

Lemma map_res_enc ts : Forall (fun t => tlv_ok t /\ small t) ts ->
  map_res unmarshal_raw_record (map enc ts) = Ok (map expected ts).
Proof.
  intros F. apply map_res_ok. induction F as [|t ts [T S] F IH]; constructor; auto.
  rewrite unmarshal_enc by auto. destruct (Z.leb_spec (t_len t) 65530); auto.
  unfold small in S. lia.
Qed.

Lemma map_res_enc_panic ts t us :
  Forall (fun t => tlv_ok t /\ small t) ts -> tlv_ok t -> ~ small t ->
  map_res unmarshal_raw_record (map enc (ts ++ t :: us)) = Panic.
Proof.
  intros F T S. induction F as [|u ts [U V] F IH]; cbn [app map map_res].
  - rewrite unmarshal_enc by auto. destruct (Z.leb_spec (t_len t) 65530).
    + now destruct S.
    + reflexivity.
  - rewrite unmarshal_enc by auto. destruct (Z.leb_spec (t_len u) 65530);
      [|unfold small in V; lia]. cbn [bind]. rewrite IH. reflexivity.
Qed.

(** The complete behaviour of UnmarshalRawCardFile. *)
Theorem raw_card_ok ts d :
  Forall (fun t => tlv_ok t /\ small t) ts -> stuck d ->
  unmarshal_raw_card_file (encs ts ++ d) = (let* _ := outcome d in Ok (map expected ts)).
Proof.
  intros F S. destruct (scan_card_spec ts d) as (toks & s & E & M); auto.
  { eapply Forall_impl; [|exact F]. intros t [? ?]. unfold small in *. split; auto. lia. }
  unfold unmarshal_raw_card_file. rewrite E, M, map_res_enc by auto. reflexivity.
Qed.

Lemma app_assoc_encs ts us : encs (ts ++ us) = encs ts ++ encs us.
Proof. unfold encs. now rewrite map_app, concat_app. Qed.

Theorem raw_card_panic ts t d :
  Forall (fun t => tlv_ok t /\ small t) ts -> tlv_ok t -> t_len t = 65531 -> bytes_ok d ->
  unmarshal_raw_card_file (encs ts ++ enc t ++ d) = Panic.
Proof.
  intros F T L B. destruct (encs_decompose (length d) d) as (us & d' & -> & G & S); auto.
  replace (encs ts ++ enc t ++ encs us ++ d') with (encs (ts ++ t :: us) ++ d')
    by (rewrite app_assoc_encs; unfold encs; cbn [map concat]; now rewrite <- !app_assoc).
  destruct (scan_card_spec (ts ++ t :: us) d') as (toks & s & E & M); auto.
  { apply Forall_app. split; [|constructor; auto].
    - eapply Forall_impl; [|exact F]. intros u [? ?]. unfold small in *. split; auto. lia.
    - split; auto. lia. }
  unfold unmarshal_raw_card_file. rewrite E, M, map_res_enc_panic; auto. unfold small. lia.
Qed.

Lemma small_dec ts : Forall (fun t => tlv_ok t /\ t_len t <= 65531) ts ->
  Forall (fun t => tlv_ok t /\ small t) ts \/
  exists a t b, ts = a ++ t :: b /\ Forall (fun t => tlv_ok t /\ small t) a /\
    tlv_ok t /\ t_len t = 65531.
Proof.
  induction 1 as [|t ts [T L] F IH]; [left; constructor|].
  destruct (Z.le_gt_cases (t_len t) 65530) as [H|H].
  - destruct IH as [IH|(a & u & b & -> & A & U & LU)].
    + left. constructor; auto.
    + right. exists (t :: a), u, b. split; [reflexivity|]. split; [constructor; auto|]. auto.
  - right. exists [], t, ts. split; [reflexivity|]. split; [constructor|]. split; auto. lia.
Qed.

Lemma outcome_ok d : outcome d = Ok tt <-> d = [].
Proof.
  unfold outcome. split; [|intros ->; reflexivity]. destruct d; auto.
  destruct (_ <? _)%nat; discriminate.
Qed.

Lemma outcome_no_panic d : outcome d <> Panic.
Proof. unfold outcome. destruct d; [discriminate|]. destruct (_ <? _)%nat; discriminate. Qed.

Theorem raw_card_inv d rs : bytes_ok d -> unmarshal_raw_card_file d = Ok rs ->
  exists ts, Forall (fun t => tlv_ok t /\ small t) ts /\ d = encs ts /\ rs = map expected ts.
Proof.
  intros B U. destruct (encs_decompose (length d) d) as (ts & d' & -> & F & S); auto.
  destruct (small_dec ts F) as [G|(a & t & b & -> & A & T & L)].
  - rewrite raw_card_ok in U by auto. apply bind_ok in U as ([] & O & U). apply Ok_inj in U.
    apply outcome_ok in O. subst d'. exists ts. rewrite app_nil_r. auto.
  - exfalso. rewrite app_assoc_encs in U. unfold encs at 2 in U. cbn [map concat] in U.
    rewrite <- !app_assoc in U. rewrite raw_card_panic in U; auto; [discriminate|].
    apply bytes_ok_app in B as [B D]. rewrite app_assoc_encs in B.
    apply bytes_ok_app in B as [_ B]. unfold encs in B. cbn [map concat] in B.
    apply bytes_ok_app in B as [_ B]. apply bytes_ok_app. split; auto.
Qed.

Theorem raw_card_panic_iff d : bytes_ok d ->
  (unmarshal_raw_card_file d = Panic <->
   exists ts t x, d = encs ts ++ enc t ++ x /\ Forall (fun t => tlv_ok t /\ small t) ts /\
     tlv_ok t /\ t_len t = 65531).
Proof.
  intros B. split.
  - intros U. destruct (encs_decompose (length d) d) as (ts & d' & -> & F & S); auto.
    destruct (small_dec ts F) as [G|(a & t & b & -> & A & T & L)].
    + rewrite raw_card_ok in U by auto. apply bind_panic in U as [O|(u & _ & U)]; [|discriminate].
      now apply outcome_no_panic in O.
    + exists a, t, (encs b ++ d'). rewrite app_assoc_encs. unfold encs at 2. cbn [map concat].
      rewrite <- !app_assoc. auto.
  - intros (ts & t & x & -> & F & T & L). apply raw_card_panic; auto.
    apply bytes_ok_app in B as [_ B]. apply bytes_ok_app in B as [_ B]. auto.
Qed.
