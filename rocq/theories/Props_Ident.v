(** Property C36: the identification file. *)

From Verif Require Import Base Enums DDScalar Utf8 DDString DDRecord CardIdent
  P_Scalar Props_Scalar P_Utf8 P_String Props_String Field P_Basic Props_Basic P_Record P_Records
  Props_Records P_Ident.

(** ** Plain ASCII text *)

Definition ascii (l : bytes) : Prop := Forall (fun b => 0 <= b < 128) l.

(** White space and zero bytes. *)
Definition blank (b : Z) : Prop := In b [0; 9; 10; 11; 12; 13; 32].

(** Text at the start of the field, the rest filled with spaces. *)
Definition left_aligned (s : bytes) : Prop :=
  exists t k, s = t ++ repeat 32 k /\ (t = [] \/ (~ blank (hd 0 t) /\ ~ blank (last t 0))).

Lemma ascii_utf8 l : ascii l -> utf8 l = l.
Proof.
  induction 1 as [|b l H F IH]; [reflexivity|]. cbn. change (concat (map encode_rune l)) with (utf8 l).
  rewrite IH, encode_rune_scalar by (unfold scalar; lia). destruct (Z.ltb_spec b 128); [reflexivity|lia].
Qed.

Lemma ascii_scalar l : ascii l -> Forall scalar l.
Proof. apply Forall_impl. unfold scalar. intros; lia. Qed.

Lemma blank_cutset b : 0 <= b < 128 -> (in_cutset b = false <-> ~ blank b).
Proof.
  intros H. unfold in_cutset, blank, rune_error. cbn [existsb In]. lia.
Qed.

Lemma ascii_clean t : ascii t -> (clean_text t <-> (t = [] \/ (~ blank (hd 0 t) /\ ~ blank (last t 0)))).
Proof.
  intros A. destruct t as [|x t].
  { split; auto. intros _. exists []. repeat split; auto. }
  assert (Hx : 0 <= x < 128) by (inversion A; auto).
  assert (Hl : 0 <= last (x :: t) 0 < 128).
  { unfold ascii in A. rewrite Forall_forall in A. apply A.
    rewrite (app_removelast_last (l := x :: t) 0) at 2 by discriminate. apply in_or_app. right. now left. }
  pose proof (ascii_scalar _ A) as S. pose proof (ascii_utf8 _ A) as U.
  split.
  - intros (rs & F & E & C). right. destruct C as [->|[Ch Cl]]; [discriminate|].
    assert (Hh : hd 0 rs = x).
    { apply (valid_text_head rs x (utf8 t)); auto; [inversion S; auto|].
      rewrite <- E, <- U. reflexivity. }
    assert (Hr : rs = x :: t \/ last rs 0 = last (x :: t) 0).
    { right. destruct (valid_text_prefix (removelast (x :: t)) (last (x :: t) 0) rs) as (ps & _ & _ & ->); auto.
      - rewrite (app_removelast_last (l := x :: t) 0) in A by discriminate.
        unfold ascii in A. apply Forall_app in A as [A _].
        eapply Forall_impl; [|exact A]. unfold byte_ok. intros; cbn in *; lia.
      - unfold scalar. lia.
      - rewrite encode_rune_scalar by (unfold scalar; lia).
        destruct (Z.ltb_spec (last (x :: t) 0) 128); [|lia].
        rewrite <- app_removelast_last by discriminate. exact E.
      - apply last_last. }
    rewrite Hh in Ch. split; [apply blank_cutset; auto|].
    destruct Hr as [->|Hr]; [apply blank_cutset; auto|]. rewrite Hr in Cl. apply blank_cutset; auto.
  - intros [D|[B1 B2]]; [discriminate|]. exists (x :: t). split; [auto|]. split; [auto|]. right.
    split; apply blank_cutset; auto.
Qed.

Lemma trim_left_suffix f l : exists p, l = p ++ trim_left f l.
Proof.
  revert l; induction f as [|f IH]; intros l; cbn [trim_left]; [exists []; reflexivity|].
  destruct l as [|b l]; [exists []; reflexivity|]. destruct (decode_rune (b :: l)) as [r n].
  destruct (in_cutset r); [|exists []; reflexivity].
  destruct (IH (skipn n (b :: l))) as [p E]. exists (firstn n (b :: l) ++ p).
  rewrite <- app_assoc, <- E, firstn_skipn. reflexivity.
Qed.

Lemma ascii_bytes l : ascii l -> bytes_ok l.
Proof. apply Forall_impl. unfold byte_ok. intros; lia. Qed.

Lemma trim_ascii s : ascii s -> ascii (trim s) /\ (length (trim s) <= length s)%nat.
Proof.
  intros A. unfold trim.
  destruct (trim_right_spec (length s) s (ascii_bytes s A) (le_n _)) as (_ & (q & Eq) & _).
  set (r := trim_right (length s) s) in *. clearbody r.
  destruct (trim_left_suffix (length r) r) as (p & Ep). set (t := trim_left (length r) r) in *. clearbody t.
  rewrite Eq, Ep in A. unfold ascii in A. rewrite !Forall_app in A. split; [tauto|].
  rewrite Eq, Ep, !app_length. lia.
Qed.

Lemma number_text_ascii s : ascii s -> number_text s = trim s.
Proof.
  intros A. unfold number_text, make_valid. destruct (trim_ascii s A) as [T _].
  rewrite <- (ascii_utf8 (trim s)) at 2 by auto. rewrite valid_utf8_text by (apply ascii_scalar; auto). reflexivity.
Qed.

Lemma exact_ident k s : ascii s -> length s = k -> (w_ident k s = s <-> left_aligned s).
Proof.
  intros A L. destruct (trim_ascii s A) as [T TL]. split.
  - intros E. unfold w_ident, pad_spaces in E. rewrite number_text_ascii in E by auto.
    rewrite firstn_all2 in E by lia. exists (trim s), (k - length (trim s))%nat. split; auto.
    apply ascii_clean; auto. rewrite <- number_text_ascii by auto. apply number_text_clean, ascii_bytes; auto.
  - intros (t & j & E & B). assert (At : ascii t) by (rewrite E in A; unfold ascii in A; rewrite Forall_app in A; tauto).
    apply ascii_clean in B; auto. unfold w_ident, number_text. rewrite E, clean_padded by auto.
    unfold pad_spaces. rewrite E, app_length, repeat_length in L. rewrite firstn_all2 by lia.
    do 2 f_equal. lia.
Qed.

Lemma ascii_sub l i n : ascii l -> ascii (sub l i n).
Proof.
  unfold ascii. rewrite !Forall_forall. intros A x I. apply A. unfold sub in I.
  rewrite <- (firstn_skipn i l). apply in_or_app. right.
  rewrite <- (firstn_skipn n (skipn i l)). apply in_or_app. now left.
Qed.

Lemma ascii_fits n : ascii n -> length n = 16%nat -> number_fits n = true.
Proof.
  intros A L. unfold number_fits. apply Nat.leb_le.
  assert (As : forall k, ascii (sub n 0 k)) by (intros; apply ascii_sub, A).
  rewrite number_text_ascii by auto. destruct (trim_ascii _ (As (number_len n))) as [_ Q].
  rewrite sub_length in Q by (unfold number_len; destruct (number_digits n); lia). exact Q.
Qed.

(** An index that is kept: no white space. *)
Definition index_kept (b : Z) : Prop := b = 0 \/ ~ blank b.

Lemma exact_index b : 0 <= b < 128 -> (w_index b = b <-> index_kept b).
Proof.
  intros H. destruct (w_index_spec b) as (E & _); [unfold byte_ok; lia|]. rewrite E.
  unfold index_kept. rewrite <- blank_cutset by auto.
  destruct (in_cutset b) eqn:C; destruct (Z.leb_spec 128 b); cbn [orb]; try lia.
Qed.

(** How the sixteen bytes of the card number are read. *)
Definition is_digit (b : Z) : Prop := 48 <= b <= 57.
Definition number_aligned (n : bytes) : Prop :=
  (is_digit (nth 14 n 0) /\ is_digit (nth 15 n 0) -> left_aligned (firstn 14 n)) /\
  (~ (is_digit (nth 14 n 0) /\ is_digit (nth 15 n 0)) ->
     left_aligned (firstn 13 n) /\
     index_kept (nth 13 n 0) /\ index_kept (nth 14 n 0) /\ index_kept (nth 15 n 0)).

Lemma exact_number n : ascii n -> length n = 16%nat -> (w_number n = n <-> number_aligned n).
Proof.
  intros A L. unfold w_number, number_aligned.
  assert (D : number_digits n = true <-> is_digit (nth 14 n 0) /\ is_digit (nth 15 n 0)).
  { unfold number_digits, digitb, is_digit. rewrite !andb_true_iff. lia. }
  assert (As : forall k, ascii (sub n 0 k)) by (intros; apply ascii_sub, A).
  assert (An : forall i, (i < 16)%nat -> 0 <= nth i n 0 < 128).
  { intros i I. unfold ascii in A. rewrite Forall_forall in A. apply A, nth_In. lia. }
  destruct (number_digits n) eqn:B.
  - destruct D as [D _]. specialize (D eq_refl).
    assert (E : n = sub n 0 14 ++ sub n 14 2) by (rewrite sub_join by lia; symmetry; apply sub_whole; lia).
    transitivity (w_ident 14 (sub n 0 14) = sub n 0 14).
    + rewrite E at 3. split; [|now intros ->]. intros Q. apply app_inv_tail in Q. exact Q.
    + rewrite exact_ident by (auto; apply sub_length; lia). unfold sub. cbn [skipn]. tauto.
  - assert (ND : ~ (is_digit (nth 14 n 0) /\ is_digit (nth 15 n 0))) by (rewrite <- D; discriminate).
    assert (E : n = sub n 0 13 ++ [nth 13 n 0; nth 14 n 0; nth 15 n 0]).
    { transitivity (sub n 0 (13 + 3)); [symmetry; apply sub_whole; lia|].
      rewrite <- (sub_join n 0 13 3 13) by lia. f_equal. change (sub n 13 3) with (sub n 13 (1 + (1 + 1))).
      rewrite <- (sub_join n 13 1 (1 + 1) 14), <- (sub_join n 14 1 1 15) by lia.
      rewrite !sub_1 by lia. reflexivity. }
    rewrite <- !exact_index by (apply An; lia).
    assert (Ls : length (sub n 0 13) = 13%nat) by (apply sub_length; lia).
    pose proof (exact_ident 13 (sub n 0 13) (As 13%nat) Ls) as X.
    unfold sub in X at 3. cbn [skipn] in X. rewrite <- X.
    transitivity (w_ident 13 (sub n 0 13) ++ [w_index (nth 13 n 0); w_index (nth 14 n 0); w_index (nth 15 n 0)] =
                  sub n 0 13 ++ [nth 13 n 0; nth 14 n 0; nth 15 n 0]); [rewrite <- E; reflexivity|].
    split.
    + intros Q. assert (Q1 := f_equal (firstn 13) Q). assert (Q2 := f_equal (skipn 13) Q).
      rewrite !firstn_app_exact in Q1 by (auto; apply w_ident_length).
      rewrite !skipn_app_exact in Q2 by (auto; apply w_ident_length).
      injection Q2. intros. tauto.
    + intros [_ Q]. destruct (Q ND) as (-> & -> & -> & ->). reflexivity.
Qed.

Lemma exact_date d i : (i + 4 <= length d)%nat -> bytes_ok d ->
  (f_w f_date (sub d i 4) = Ok (sub d i 4) <-> all_decimal (sub d i 4)).
Proof.
  intros L H. cbn [f_w f_date f_fun].
  assert (Hs : bytes_ok (sub d i 4)) by (apply bytes_ok_sub; auto).
  assert (Ls : length (sub d i 4) = 4%nat) by (apply sub_length; lia).
  set (s := sub d i 4) in *. clearbody s.
  destruct s as [|b0 [|b1 [|b2 [|b3 [|]]]]]; try (simpl in Ls; lia).
  rewrite !bytes_ok_cons in Hs. destruct Hs as (H0 & H1 & H2 & H3 & _). unfold byte_ok in *.
  rewrite w_date_eq. cbv zeta. rewrite !Z.quot_div_nonneg by lia. rewrite !date_digits_eq by lia.
  unfold all_decimal. split.
  - intros E. apply Ok_inj in E. injection E. intros E3 E2 E1 E0.
    repeat constructor; lia.
  - intros F. inversion F as [|? ? F0 F']; subst. inversion F' as [|? ? F1 F'']; subst.
    inversion F'' as [|? ? F2 F3]; subst. inversion F3 as [|? ? F4 _]; subst.
    f_equal. f_equal; [lia|f_equal; [lia|f_equal; [lia|f_equal; lia]]].
Qed.

(** * C36: the identification file *)

(** Every 143-byte content is accepted.  It can be written back exactly when its
    issuing state has a known code.  With a card number in plain ASCII the result
    is the input exactly when in addition the three names have known code
    pages, the birth date is decimal and the card number is aligned.  Missing
    for the full claim: those side conditions (see C36_identification_refuted). *)
Theorem C36_identification_partial :
  forall cm d, bytes_ok d -> length d = 143%nat ->
  exists x, unmarshal_identification cm d = Ok x /\
    let out := append_identification (Some x) in
    (is_ok out = true <-> nation_known (nth 0 d 0)) /\
    (ascii (sub d 1 16) ->
       (out = Ok d <->
          nation_known (nth 0 d 0) /\
          page_known (nth 17 d 0) /\ page_known (nth 65 d 0) /\ page_known (nth 101 d 0) /\
          all_decimal (sub d 137 4) /\ number_aligned (sub d 1 16))).
Proof.
  intros cm d H L. pose proof (ident_codec cm d H) as C. cbv beta in C.
  destruct (unmarshal_identification cm d) as [x|e|] eqn:U; [|rewrite L in C; discriminate|contradiction].
  exists x. split; auto. cbv zeta. destruct C as (_ & _ & C).
  assert (E : append_identification (Some x) = w_at ident_fields d 0).
  { clear C. pose proof (ident_writes cm d x H ltac:(lia) U) as E. exact E. }
  rewrite E. split.
  - unfold ident_fields. cbn [w_at f_nation f_number f_string f_fun f_id f_date f_len f_w Nat.add bind].
    rewrite nth_sub, <- nation_knownb_iff by lia. cbn [Nat.add].
    destruct (nation_knownb _); cbn; split; auto; discriminate.
  - intros A. assert (Ln : length (sub d 1 16) = 16%nat) by (apply sub_length; lia).
    pose proof (ascii_fits _ A Ln) as Fit.
    rewrite (w_at_exact ident_fields d); auto.
    + unfold ident_fields. cbn [exact_at].
      change (f_len f_nation) with 1%nat. change (f_len f_number) with 16%nat.
      change (f_len (f_string 36)) with 36%nat. change (f_len (f_id 4)) with 4%nat.
      change (f_len f_date) with 4%nat. change (f_len (f_id 2)) with 2%nat. cbn [Nat.add].
      rewrite exact_nation, !exact_string, exact_date by (auto; lia).
      cbn [f_w f_number f_id].
      rewrite <- (exact_number (sub d 1 16)) by auto.
      split; [intros (? & Q & ?); apply Ok_inj in Q; tauto|].
      intros (? & ? & ? & ? & ? & ->). tauto.
    + repeat (apply Forall_cons; [solve [auto using good_number, good_nation, good_id, good_date | apply good_string; lia]|]); apply Forall_nil.
    + unfold ident_fields. cbn [acc_at f_nation f_number f_string f_fun f_id f_date f_len f_acc Nat.add andb].
      rewrite Fit. reflexivity.
Qed.
Print Assumptions C36_identification_partial.

(** Whatever was written for an ASCII card number is read and written again
    unchanged. *)
Theorem C36_stable_partial :
  forall cm d, bytes_ok d -> ascii (sub d 1 16) ->
  forall x d', unmarshal_identification cm d = Ok x -> append_identification (Some x) = Ok d' ->
  length d' = 143%nat /\
  exists x', unmarshal_identification cm d' = Ok x' /\ append_identification (Some x') = Ok d'.
Proof.
  intros cm d H A x d' U E. pose proof (ident_codec cm d H) as C. cbv beta in C. rewrite U in C.
  destruct C as (L & _ & C). apply Nat.leb_le in L.
  destruct C as [CE CF].
  { unfold ident_fits. apply ascii_fits; auto. apply sub_length; lia. }
  destruct (CF d') as (H' & _ & L' & W' & P'); [congruence|].
  split.
  { rewrite E in CE. symmetry in CE. apply (ident_w_length d d' H L CE). }
  pose proof (ident_codec cm d' H') as C'. cbv beta in C'. apply Nat.leb_le in L'.
  destruct (unmarshal_identification cm d') as [x'|e|]; [|apply Nat.leb_gt in C'; lia|contradiction].
  exists x'. split; auto. destruct C' as (_ & _ & C'). destruct (C' P') as [-> _]. exact W'.
Qed.
Print Assumptions C36_stable_partial.

Definition cm0 : Z -> Z -> Z := fun _ b => b.

Definition ident_sample (number : bytes) : bytes :=
  [18] ++ number ++ (1 :: repeat 65 35) ++ zeros 12 ++ (1 :: repeat 66 35) ++ (1 :: repeat 67 35) ++
  [25; 128; 18; 49] ++ [102; 105].

Example ident_sample_driver :
  let d := ident_sample [70;73;78;49;50;51;52;53;54;55;56;32;32;32; 48;49] in
  bytes_ok d /\ ascii (sub d 1 16) /\
  exists x, unmarshal_identification cm0 d = Ok x /\ ident_type x = CARD_TYPE_DRIVER /\
    append_identification (Some x) = Ok d.
Proof.
  split; [apply bytes_okb_ok; vm_compute; reflexivity|].
  split; [unfold ascii; apply Forall_forall; cbn; intros; lia|].
  eexists. split; [vm_compute; reflexivity|]. split; [reflexivity|vm_compute; reflexivity].
Qed.

Example ident_sample_owner :
  let d := ident_sample [70;73;78;49;50;51;52;53;54;55;56;32;32;65; 66;67] in
  exists x, unmarshal_identification cm0 d = Ok x /\ ident_type x = CARD_TYPE_WORKSHOP /\
    append_identification (Some x) = Ok d.
Proof.
  eexists. split; [vm_compute; reflexivity|]. split; [reflexivity|vm_compute; reflexivity].
Qed.

(** The full claim fails: a card number that starts with a space comes back
    shifted, one padded with zero bytes comes back padded with spaces, and a
    card of an unknown state cannot be written at all. *)
Theorem C36_identification_refuted :
  (exists d x d', bytes_ok d /\ length d = 143%nat /\ unmarshal_identification cm0 d = Ok x /\
     append_identification (Some x) = Ok d' /\ d' <> d /\ nth 1 d 0 = 32) /\
  (exists d x d', bytes_ok d /\ length d = 143%nat /\ unmarshal_identification cm0 d = Ok x /\
     append_identification (Some x) = Ok d' /\ d' <> d /\ nth 14 d 0 = 0 /\ nth 14 d' 0 = 32) /\
  (exists d x e, bytes_ok d /\ length d = 143%nat /\ unmarshal_identification cm0 d = Ok x /\
     append_identification (Some x) = Err e).
Proof.
  split; [|split].
  - exists (ident_sample [32;70;73;78;49;50;51;52;53;54;55;56;57;48; 48;49]). do 2 eexists.
    split; [apply bytes_okb_ok; vm_compute; reflexivity|]. split; [reflexivity|].
    split; [vm_compute; reflexivity|]. split; [vm_compute; reflexivity|]. split; [discriminate|reflexivity].
  - exists (ident_sample [70;73;78;49;50;51;52;53;54;55;56;57;48;0; 48;49]). do 2 eexists.
    split; [apply bytes_okb_ok; vm_compute; reflexivity|]. split; [reflexivity|].
    split; [vm_compute; reflexivity|]. split; [vm_compute; reflexivity|]. split; [discriminate|split; reflexivity].
  - exists (200 :: skipn 1 (ident_sample [70;73;78;49;50;51;52;53;54;55;56;57;48;49; 48;49])). do 2 eexists.
    split; [apply bytes_okb_ok; vm_compute; reflexivity|]. split; [reflexivity|].
    split; [vm_compute; reflexivity|]. vm_compute; reflexivity.
Qed.
Print Assumptions C36_identification_refuted.

(** Outside ASCII not even the second cycle is stable: an invalid byte in the
    card number is replaced by three, the text is cut inside its last
    character, and the next cycle drops that fragment. *)
Theorem C36_stable_refuted :
  exists d x d' x' d'', bytes_ok d /\ length d = 143%nat /\
    unmarshal_identification cm0 d = Ok x /\ append_identification (Some x) = Ok d' /\
    unmarshal_identification cm0 d' = Ok x' /\ append_identification (Some x') = Ok d'' /\ d'' <> d'.
Proof.
  exists (ident_sample [65;128;66;66;66;66;66;66;66;66;66;226;130;172; 48;49]). do 4 eexists.
  split; [apply bytes_okb_ok; vm_compute; reflexivity|]. split; [reflexivity|].
  split; [vm_compute; reflexivity|]. split; [vm_compute; reflexivity|].
  split; [vm_compute; reflexivity|]. split; [vm_compute; reflexivity|]. discriminate.
Qed.
Print Assumptions C36_stable_refuted.
