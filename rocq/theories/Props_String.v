(** Properties C28-C31: text. *)

From Verif Require Import Base Enums DDScalar Utf8 P_Utf8 DDString P_String.

(** * C28: code-paged text *)

(** The code pages the regulation's text fields may use (and 255 = empty). *)
Definition legal_code_page (cp : Z) : Prop :=
  cp = 0 \/ cp = 1 \/ cp = 2 \/ cp = 3 \/ cp = 5 \/ cp = 7 \/ cp = 9 \/ cp = 13 \/
  cp = 15 \/ cp = 16 \/ cp = 80 \/ cp = 85 \/ cp = 255.

Lemma legal_known cp : legal_code_page cp <-> page_known cp.
Proof. unfold legal_code_page, page_known, known_pages. cbn [In]. split; intuition auto. Qed.

(** A parsed field is written back byte for byte exactly when its code page is
    one of the known ones; otherwise only the code page byte changes, to 255. *)
Theorem C28_string_value_partial :
  forall (cm : Z -> Z -> Z) cp text, byte_ok cp -> text <> [] ->
  exists sv, unmarshal_string_value cm (cp :: text) = Ok sv /\
    (legal_code_page cp -> append_string_value (Some sv) = Ok (cp :: text)) /\
    (~ legal_code_page cp -> append_string_value (Some sv) = Ok (255 :: text)).
Proof.
  intros cm cp text Hcp Ht.
  destruct (unmarshal_string_ok cm (cp :: text)) as (v & E).
  { destruct text; [congruence|simpl; lia]. }
  eexists. split; [exact E|]. split; intros L.
  - eapply string_round_trip; eauto. now apply legal_known.
  - rewrite (string_write_back cm _ _ E). cbn [nth skipn].
    rewrite norm_page_unknown; auto. intros K. apply L, legal_known, K.
Qed.
Print Assumptions C28_string_value_partial.

(** Building a field from text: padded with spaces to the declared length,
    refused exactly when too long. *)
Theorem C28_string_build :
  forall enc n text, 0 <= n -> enc <> 3 -> 2 <= enc <= 14 ->
  let r := append_string_value (Some (mkSV None enc (Some n) text)) in
  (Z.of_nat (length text) <= n ->
     exists cp k, r = Ok (cp :: text ++ repeat 32 k) /\ legal_code_page cp /\ cp <> 255 /\
       Z.of_nat (length text + k) = n) /\
  (n < Z.of_nat (length text) -> exists e, r = Err e).
Proof.
  intros enc n text Hn He Hr r. unfold r, append_string_value.
  cbn [sv_raw sv_length sv_encoding sv_value odflt bind length Nat.ltb Nat.leb].
  assert (C : legal_code_page (code_page_of_encoding enc) /\ code_page_of_encoding enc <> 255).
  { unfold legal_code_page.
    assert (D : enc = 2 \/ enc = 4 \/ enc = 5 \/ enc = 6 \/ enc = 7 \/ enc = 8 \/ enc = 9 \/
      enc = 10 \/ enc = 11 \/ enc = 12 \/ enc = 13 \/ enc = 14) by lia.
    repeat (destruct D as [->|D]; [cbn; lia|]). subst; cbn; lia. }
  destruct C as [C1 C2]. unfold encode_with_code_page.
  destruct (Z.eqb_spec (code_page_of_encoding enc) 255); [contradiction|].
  rewrite Z.gtb_ltb. split; intros L.
  - destruct (Z.ltb_spec n (Z.of_nat (length text))); [lia|].
    exists (code_page_of_encoding enc), (Z.to_nat n - length text)%nat.
    split; [reflexivity|]. repeat split; auto. lia.
  - destruct (Z.ltb_spec n (Z.of_nat (length text))); [|lia]. exists EOther; reflexivity.
Qed.
Print Assumptions C28_string_build.

Theorem C28_string_value_refuted :
  exists cm d sv, bytes_ok d /\ unmarshal_string_value cm d = Ok sv /\
    append_string_value (Some sv) <> Ok d.
Proof.
  exists (fun _ b => b), [4; 65; 66]. eexists. split; [repeat constructor; lia|].
  split; [reflexivity|]. vm_compute. discriminate.
Qed.
Print Assumptions C28_string_value_refuted.

Example C28_example :
  (forall cm, unmarshal_string_value cm [1; 0x4D; 0xFC; 0x20] =
     Ok (mkSV (Some [1; 0x4D; 0xFC; 0x20]) 4 (Some 3) [0x4D; 0xC3; 0xBC])) /\
  append_string_value (Some (mkSV None 4 (Some 5) [65; 66])) = Ok [1; 65; 66; 32; 32; 32].
Proof. split; reflexivity. Qed.

(** * C29: IA5 text *)

Theorem C29_ia5_round_trip :
  (forall d, d <> [] -> exists s, unmarshal_ia5 d = Ok s /\ append_ia5 (Some s) = Ok d /\
     ia5_length s = Some (Z.of_nat (length d))) /\
  (exists e, unmarshal_ia5 [] = Err e) /\
  (forall n text, 0 <= n ->
     let r := append_ia5 (Some (mkIA5 None (Some n) text)) in
     (Z.of_nat (length text) <= n ->
        exists k, r = Ok (text ++ repeat 32 k) /\ Z.of_nat (length text + k) = n) /\
     (n < Z.of_nat (length text) -> exists e, r = Err e)).
Proof.
  split; [|split].
  - intros d H. assert (1 <= length d)%nat by (destruct d; [congruence|simpl; lia]).
    eexists. split; [apply unmarshal_ia5_ok; auto|]. split; [|reflexivity].
    apply ia5_round_trip. apply unmarshal_ia5_ok; auto.
  - exists EEOF; reflexivity.
  - intros n text Hn r. unfold r, append_ia5. cbn [ia5_length ia5_raw ia5_value].
    rewrite Z.gtb_ltb. split; intros L.
    + destruct (Z.ltb_spec n (Z.of_nat (length text))); [lia|].
      exists (Z.to_nat n - length text)%nat. split; [reflexivity|lia].
    + destruct (Z.ltb_spec n (Z.of_nat (length text))); [|lia]. exists EOther; reflexivity.
Qed.
Print Assumptions C29_ia5_round_trip.

Example C29_example :
  unmarshal_ia5 [0x53; 0x31; 0x20; 0xFF] =
    Ok (mkIA5 (Some [0x53; 0x31; 0x20; 0xFF]) (Some 4) [0x53; 0x31]) /\
  append_ia5 (Some (mkIA5 None (Some 4) [0x53; 0x31])) = Ok [0x53; 0x31; 0x20; 0x20].
Proof. split; reflexivity. Qed.

(** * C30: text is clean UTF-8 *)

(** Specification: [l] is the UTF-8 encoding of a sequence of Unicode scalar
    values that neither starts nor ends with white space, NUL or U+FFFD. *)
Definition padding_rune (r : Z) : Prop :=
  9 <= r <= 13 \/ r = 32 \/ r = 0 \/ r = 0xFFFD.

Definition clean_utf8 (l : bytes) : Prop :=
  exists rs, Forall (fun r => 0 <= r <= 0xD7FF \/ 0xE000 <= r <= 0x10FFFF) rs /\
    l = concat (map encode_rune rs) /\
    (forall r rest, rs = r :: rest -> ~ padding_rune r) /\
    (forall r front, rs = front ++ [r] -> ~ padding_rune r).

Lemma clean_text_clean_utf8 l : clean_text l -> clean_utf8 l.
Proof.
  intros (rs & F & E & C). exists rs. split; [|split; [auto|]].
  - eapply Forall_impl; [|exact F]. intros r. unfold scalar. cbv beta. lia.
  - assert (K : forall r, in_cutset r = false -> ~ padding_rune r).
    { intros r. unfold in_cutset, padding_rune, rune_error. cbn [existsb]. lia. }
    destruct C as [->|[H L]].
    + split; [discriminate|]. intros r front Q. destruct front; discriminate.
    + split; intros r x Q; apply K; subst rs; [exact H|].
      rewrite last_snoc in L. exact L.
Qed.

Theorem C30_text_is_clean_partial :
  (forall cm d sv, unmarshal_string_value cm d = Ok sv -> clean_utf8 (sv_value sv)) /\
  (forall d s, bytes_ok d -> unmarshal_ia5 d = Ok s -> clean_utf8 (ia5_value s)).
Proof.
  split; intros; apply clean_text_clean_utf8; eauto using string_value_clean, ia5_clean.
Qed.
Print Assumptions C30_text_is_clean_partial.

(** 0xFF padding survives as U+00FF in code-paged text (the cutset's FF byte is
    matched against decoded runes, so it only removes U+FFFD). *)
Theorem C30_padding_refuted :
  exists cm d sv, bytes_ok d /\ nth 0 d 0 = 1 /\ d = [1; 65; 66; 0xFF; 0xFF] /\
    unmarshal_string_value cm d = Ok sv /\ sv_value sv = [65; 66] ++ encode_rune 0xFF ++ encode_rune 0xFF.
Proof.
  exists (fun _ b => b), [1; 65; 66; 0xFF; 0xFF]. eexists.
  split; [repeat constructor; lia|]. repeat split.
Qed.
Print Assumptions C30_padding_refuted.

Example C30_example :
  exists s, unmarshal_ia5 [0x20; 0x41; 0xC3; 0x28; 0xFF; 0x00] = Ok s /\
    ia5_value s = [0x41; 0xEF; 0xBF; 0xBD; 0x28].
Proof. eexists. split; reflexivity. Qed.

(** * C31: vehicle registrations *)

Theorem C31_vehicle_registration_partial :
  forall cm d, bytes_ok d -> length d = 15%nat ->
  exists v, unmarshal_vreg cm d = Ok v /\
    (* known nation and code page: byte-exact *)
    ((exists n, In (n, Some (nth 0 d 0)) nation_numeric_table) -> legal_code_page (nth 1 d 0) ->
       append_vreg (Some v) = Ok d) /\
    (* known nation, unknown code page: only the code page byte changes, to 255 *)
    ((exists n, In (n, Some (nth 0 d 0)) nation_numeric_table) -> ~ legal_code_page (nth 1 d 0) ->
       append_vreg (Some v) = Ok (nth 0 d 0 :: 255 :: skipn 2 d)) /\
    (* unknown nation: parsed as UNRECOGNIZED, serialising refused *)
    ((~ exists n, In (n, Some (nth 0 d 0)) nation_numeric_table) ->
       vr_nation v = ENUM_UNRECOGNIZED /\ exists e, append_vreg (Some v) = Err e).
Proof.
  intros cm d B L. destruct (unmarshal_vreg_ok cm d L) as (v & U). exists v.
  split; auto. destruct (vreg_write_back cm d v U) as [W1 W2]. split; [|split].
  - intros K P. eapply vreg_round_trip; eauto. now apply legal_known.
  - intros K P. rewrite (W1 K). rewrite norm_page_unknown.
    + f_equal. f_equal. f_equal. unfold sub. apply firstn_all2. rewrite skipn_length. lia.
    + apply nth_byte_ok; auto; lia.
    + intros Q. apply P, legal_known, Q.
  - intros K. split; [|exists EOther; apply W2, K].
    unfold unmarshal_vreg in U. inv_bind U. inv_bind U. inv_ok. cbn [vr_nation].
    rewrite nation_unknown_enum by exact K. reflexivity.
Qed.
Print Assumptions C31_vehicle_registration_partial.

(** No registration is ever written with another nation than it was read with. *)
Theorem C31_no_wrong_nation :
  forall cm d v out, unmarshal_vreg cm d = Ok v -> append_vreg (Some v) = Ok out ->
  nth 0 out 0 = nth 0 d 0.
Proof.
  intros cm d v out U A. destruct (vreg_write_back cm d v U) as [W1 W2].
  destruct (nation_known_dec (nth 0 d 0)) as [K|K].
  - rewrite (W1 K) in A. apply Ok_inj in A. subst. reflexivity.
  - rewrite (W2 K) in A. discriminate.
Qed.
Print Assumptions C31_no_wrong_nation.

Theorem C31_vehicle_registration_refuted :
  exists cm d v, bytes_ok d /\ (exists n, In (n, Some (nth 0 d 0)) nation_numeric_table) /\
    unmarshal_vreg cm d = Ok v /\ append_vreg (Some v) <> Ok d.
Proof.
  exists (fun _ b => b), (18 :: 4 :: repeat 65 13). eexists.
  split; [repeat constructor; lia|]. split; [exists 21; cbn; tauto|].
  split; [reflexivity|]. vm_compute. discriminate.
Qed.
Print Assumptions C31_vehicle_registration_refuted.

Example C31_example :
  exists v, unmarshal_vreg (fun _ b => b) (18 :: 1 :: repeat 65 13) = Ok v /\
    vr_nation v = 21 /\ append_vreg (Some v) = Ok (18 :: 1 :: repeat 65 13) /\
    legal_code_page 1.
Proof. eexists. repeat split. unfold legal_code_page; tauto. Qed.
