(** Decode-then-encode facts for EF Identification (CardIdent.v). *)

From Verif Require Import Base Enums DDScalar Utf8 DDString DDRecord CardIdent
  P_Scalar Props_Scalar P_Utf8 P_String Field P_Basic P_Record P_Records.

(** ** Trimming padded text *)

Lemma encode_rune_forms r : scalar r ->
  (exists b, encode_rune r = [b] /\ 0 <= b < 128 /\ r = b) \/
  (exists b c, encode_rune r = [b; c] /\ rune_start b = true /\ rune_start c = false /\ 128 <= c) \/
  (exists b c d, encode_rune r = [b; c; d] /\ rune_start b = true /\ rune_start c = false /\ rune_start d = false /\ 128 <= d) \/
  (exists b c d e, encode_rune r = [b; c; d; e] /\ rune_start b = true /\ rune_start c = false /\
     rune_start d = false /\ rune_start e = false /\ 128 <= e).
Proof.
  intros H. rewrite encode_rune_scalar by auto. unfold scalar in H. unfold rune_start, between.
  destruct (Z.ltb_spec r 128); [left; exists r; repeat split; auto; lia|right].
  destruct (Z.ltb_spec r 2048); [left; do 2 eexists; repeat split; lia|right].
  destruct (Z.ltb_spec r 65536).
  - left. do 3 eexists; repeat split; lia.
  - right. do 4 eexists; repeat split; lia.
Qed.

Lemma nth_app_end {A} (p q : list A) k d : (1 <= k <= length q)%nat ->
  nth (length (p ++ q) - k) (p ++ q) d = nth (length q - k) q d.
Proof.
  intros H. rewrite app_length, app_nth2 by lia. f_equal. lia.
Qed.

Lemma skipn_app_end {A} (p q : list A) k : (k = length q)%nat -> skipn (length (p ++ q) - k) (p ++ q) = q.
Proof.
  intros ->. rewrite app_length, skipn_app.
  replace (length p + length q - length q)%nat with (length p) by lia.
  rewrite skipn_all, Nat.sub_diag. reflexivity.
Qed.

Lemma decode_last_encode p r : scalar r ->
  decode_last_rune (p ++ encode_rune r) = (r, length (encode_rune r)).
Proof.
  intros H. pose proof (decode_encode r [] H) as D. rewrite app_nil_r in D.
  pose proof (encode_rune_length r) as L.
  unfold decode_last_rune.
  destruct (length (p ++ encode_rune r)) eqn:N; [rewrite app_length in N; lia|]. rewrite <- N.
  destruct (encode_rune_forms r H) as [(b & E & R & Q)|[(b & c & E & Sb & Sc & G)|[(b & c & d & E & Sb & Sc & Sd & G)|(b & c & d & e & E & Sb & Sc & Sd & Se & G)]]];
    rewrite E in *; cbn [length] in *; rewrite (nth_app_end _ _ 1) by (simpl; lia); cbn [length Nat.sub nth].
  - destruct (Z.ltb_spec b 128); [|lia]. subst; reflexivity.
  - destruct (Z.ltb_spec c 128); [lia|].
    rewrite (nth_app_end p _ 2) by (simpl; lia). cbn [length Nat.sub nth]. rewrite Sb.
    destruct (Nat.leb_spec 2 (length (p ++ [b; c]))); [|rewrite app_length in *; simpl in *; lia].
    cbn [andb]. rewrite skipn_app_end by reflexivity. rewrite D. reflexivity.
  - destruct (Z.ltb_spec d 128); [lia|].
    rewrite (nth_app_end p _ 2), (nth_app_end p _ 3) by (simpl; lia). cbn [length Nat.sub nth]. rewrite Sc, Sb.
    rewrite andb_false_r.
    destruct (Nat.leb_spec 3 (length (p ++ [b; c; d]))); [|rewrite app_length in *; simpl in *; lia].
    cbn [andb]. rewrite skipn_app_end by reflexivity. rewrite D. reflexivity.
  - destruct (Z.ltb_spec e 128); [lia|].
    rewrite (nth_app_end p _ 2), (nth_app_end p _ 3), (nth_app_end p _ 4) by (simpl; lia).
    cbn [length Nat.sub nth]. rewrite Sd, Sc, Sb. rewrite !andb_false_r.
    destruct (Nat.leb_spec 4 (length (p ++ [b; c; d; e]))); [|rewrite app_length in *; simpl in *; lia].
    cbn [andb]. rewrite skipn_app_end by reflexivity. rewrite D. reflexivity.
Qed.

Lemma trim_right_stop f p r : scalar r -> in_cutset r = false ->
  trim_right f (p ++ encode_rune r) = p ++ encode_rune r.
Proof.
  intros H C. destruct f as [|f]; [reflexivity|]. cbn [trim_right].
  destruct (p ++ encode_rune r) eqn:E; [reflexivity|]. rewrite <- E.
  rewrite decode_last_encode by auto. rewrite C. reflexivity.
Qed.

Lemma trim_right_spaces t k : forall f, trim_right (k + f) (t ++ repeat 32 k) = trim_right f t.
Proof.
  induction k as [|k IH]; intros f; [cbn; now rewrite app_nil_r|].
  replace (repeat 32 (S k)) with (repeat 32 k ++ [32]) by (rewrite <- repeat_cons; reflexivity).
  rewrite app_assoc. cbn [Nat.add trim_right].
  destruct ((t ++ repeat 32 k) ++ [32]) eqn:E; [now destruct (t ++ repeat 32 k)|]. rewrite <- E.
  assert (D : decode_last_rune ((t ++ repeat 32 k) ++ [32]) = (32, 1%nat)).
  { apply (decode_last_encode _ 32). unfold scalar. lia. }
  rewrite D. change (in_cutset 32) with true. cbv iota.
  rewrite (app_length _ [32]). cbn [length].
  rewrite Nat.add_sub.
  rewrite firstn_app, firstn_all, Nat.sub_diag. cbn [firstn]. rewrite app_nil_r. apply IH.
Qed.

Lemma trim_left_stop f r rest : scalar r -> in_cutset r = false ->
  trim_left f (encode_rune r ++ rest) = encode_rune r ++ rest.
Proof.
  intros H C. destruct f as [|f]; [reflexivity|]. cbn [trim_left].
  destruct (encode_rune r ++ rest) eqn:E; [reflexivity|]. rewrite <- E.
  rewrite decode_encode by auto. rewrite C. reflexivity.
Qed.

Lemma trim_nil : trim [] = [].
Proof. reflexivity. Qed.

Lemma trim_padded t k : clean_text t -> trim (t ++ repeat 32 k) = t.
Proof.
  intros (rs & F & -> & C). unfold trim.
  rewrite app_length, repeat_length, Nat.add_comm, trim_right_spaces.
  destruct C as [->|[Ch Cl]]; [reflexivity|].
  destruct rs as [|x rs]; [reflexivity|].
  assert (R : trim_right (length (utf8 (x :: rs))) (utf8 (x :: rs)) = utf8 (x :: rs)).
  { rewrite (app_removelast_last (l := x :: rs) 0) by discriminate.
    rewrite utf8_app. replace (utf8 [last (x :: rs) 0]) with (encode_rune (last (x :: rs) 0))
      by (unfold utf8; cbn [map concat]; now rewrite app_nil_r).
    apply trim_right_stop; auto.
    rewrite Forall_forall in F. apply F. rewrite (app_removelast_last (l := x :: rs) 0) at 2 by discriminate.
    apply in_or_app. right. now left. }
  rewrite R. change (utf8 (x :: rs)) with (encode_rune x ++ utf8 rs).
  inversion F; subst. apply trim_left_stop; auto.
Qed.

Lemma valid_utf8_text rs : Forall scalar rs -> forall f, valid_utf8 f (utf8 rs) = true.
Proof.
  induction 1 as [|r rs H F IH]; intros f; [now destruct f|].
  destruct f as [|f]; [reflexivity|]. change (utf8 (r :: rs)) with (encode_rune r ++ utf8 rs).
  cbn [valid_utf8]. destruct (encode_rune r ++ utf8 rs) eqn:E; [reflexivity|]. rewrite <- E.
  rewrite decode_encode by auto.
  destruct ((r =? rune_error) && (length (encode_rune r) =? 1)%nat) eqn:B.
  - apply andb_prop in B as [B1 B2]. apply Z.eqb_eq in B1. subst. discriminate B2.
  - rewrite P_Utf8.skipn_app_exact by reflexivity. apply IH.
Qed.

Lemma make_valid_clean t : clean_text t -> make_valid t = t.
Proof.
  intros (rs & F & -> & _). unfold make_valid. rewrite valid_utf8_text by auto. reflexivity.
Qed.

Lemma clean_padded t k : clean_text t -> make_valid (trim (t ++ repeat 32 k)) = t.
Proof. intros C. rewrite trim_padded by auto. now apply make_valid_clean. Qed.

Lemma clean_bytes t : clean_text t -> bytes_ok t.
Proof. intros (rs & F & -> & _). apply utf8_bytes. Qed.

(** ** The card number *)

(** The text of an identifier. *)
Definition number_text (s : bytes) : bytes := make_valid (trim s).

Definition number_digits (n : bytes) : bool := digitb (nth 14 n 0) && digitb (nth 15 n 0).

Definition number_len (n : bytes) : nat := if number_digits n then 14 else 13.

(** The decoded identifier fits its field (repairing invalid bytes may lengthen it). *)
Definition number_fits (n : bytes) : bool :=
  (length (number_text (sub n 0 (number_len n))) <=? number_len n)%nat.

Definition w_index (b : Z) : Z := hd 0 (number_text [b]).

Definition w_ident (k : nat) (s : bytes) : bytes := pad_spaces k (firstn k (number_text s)).

Definition w_number (n : bytes) : bytes :=
  if number_digits n
  then w_ident 14 (sub n 0 14) ++ sub n 14 2
  else w_ident 13 (sub n 0 13) ++ [w_index (nth 13 n 0); w_index (nth 14 n 0); w_index (nth 15 n 0)].

Lemma index_sweep :
  forallb (fun b => (w_index b =? (if in_cutset b || (128 <=? b) then 0 else b)) &&
                    (w_index (w_index b) =? w_index b) && (0 <=? w_index b) && (w_index b <? 128))
          (zrange 256) = true.
Proof. vm_compute. reflexivity. Qed.

Lemma w_index_spec b : byte_ok b ->
  w_index b = (if in_cutset b || (128 <=? b) then 0 else b) /\ w_index (w_index b) = w_index b /\
  byte_ok (w_index b).
Proof.
  intros H. pose proof (sweep _ _ index_sweep b H) as Q. cbv beta in Q. unfold byte_ok.
  rewrite !andb_true_iff, !Z.eqb_eq in Q. lia.
Qed.

Lemma digit_text b : digitb b = true -> number_text [b] = [b].
Proof.
  unfold digitb. intros H.
  assert (b = 48 \/ b = 49 \/ b = 50 \/ b = 51 \/ b = 52 \/ b = 53 \/ b = 54 \/ b = 55 \/ b = 56 \/ b = 57) as Q by lia.
  repeat (destruct Q as [->|Q]; [reflexivity|]). subst; reflexivity.
Qed.

Lemma w_ident_length k s : length (w_ident k s) = k.
Proof. unfold w_ident. apply pad_spaces_length. rewrite firstn_length. lia. Qed.

Lemma number_text_clean s : bytes_ok s -> clean_text (number_text s).
Proof. apply make_valid_trim_clean. Qed.

Lemma w_ident_ok k s : bytes_ok s -> bytes_ok (w_ident k s).
Proof.
  intros H. unfold w_ident, pad_spaces. apply bytes_ok_app. split.
  - apply bytes_ok_firstn. apply clean_bytes, number_text_clean; auto.
  - apply Forall_forall. intros x I. apply repeat_spec in I. subst. unfold byte_ok. lia.
Qed.

Lemma w_ident_text k s : bytes_ok s -> (length (number_text s) <= k)%nat ->
  number_text (w_ident k s) = number_text s.
Proof.
  intros H L. unfold w_ident, pad_spaces. rewrite firstn_all2 by lia.
  apply clean_padded, number_text_clean; auto.
Qed.

Lemma w_ident_idem k s : bytes_ok s -> (length (number_text s) <= k)%nat ->
  w_ident k (w_ident k s) = w_ident k s.
Proof. intros H L. unfold w_ident at 1. rewrite w_ident_text by auto. reflexivity. Qed.

Lemma card_number_implements :
  implements unmarshal_card_number (fun v => Ok (append_card_number (snd v))) (f_fun 16 w_number).
Proof.
  intros n H L. cbn in L. unfold unmarshal_card_number.
  rewrite !unmarshal_ia5_ok by (rewrite sub_length; lia). cbn [bind].
  cbn [f_acc f_w f_fun]. unfold w_number. fold (number_digits n).
  destruct (number_digits n) eqn:D; (split; [reflexivity|]); cbn [snd append_card_number]; f_equal;
    cbn [dn_number dn_replacement dn_renewal oi_number oi_consecutive oi_replacement oi_renewal
         number_bytes index_byte ia5_value]; fold (number_text (sub n 0 14)) (number_text (sub n 0 13)).
  - fold (w_ident 14 (sub n 0 14)). f_equal. rewrite !sub_1 by lia.
    fold (number_text [nth 14 n 0]) (number_text [nth 15 n 0]).
    apply andb_prop in D as [D1 D2]. rewrite !digit_text by auto. cbn [hd].
    change (sub n 14 2) with (sub n 14 (1 + 1)). rewrite <- (sub_join n 14 1 1 15) by lia. rewrite !sub_1 by lia. reflexivity.
  - fold (w_ident 13 (sub n 0 13)). rewrite !sub_1 by lia. reflexivity.
Qed.

Definition f_number : field := F 16 number_fits (fun n => Ok (w_number n)).

Lemma list16 (a b : bytes) i : length a = 14%nat -> length b = 2%nat -> (i < 2)%nat ->
  nth (14 + i) (a ++ b) 0 = nth i b 0.
Proof. intros. rewrite app_nth2 by lia. f_equal. lia. Qed.

Lemma good_number : good f_number.
Proof.
  intros n H L A. cbn in L, A. split; [discriminate|]. intros d' E. cbn in E. apply Ok_inj in E. subst d'.
  cbn [f_len f_acc f_w f_number]. unfold number_fits, number_len in A. unfold w_number.
  destruct (number_digits n) eqn:D.
  - set (a := w_ident 14 (sub n 0 14)).
    assert (La : length a = 14%nat) by apply w_ident_length.
    assert (Ha : bytes_ok a) by (apply w_ident_ok, bytes_ok_sub; auto).
    assert (D' : number_digits (a ++ sub n 14 2) = true).
    { unfold number_digits in *.
      assert (Ls : length (sub n 14 2) = 2%nat) by (apply sub_length; lia).
      pose proof (list16 a (sub n 14 2) 0 La Ls ltac:(lia)) as N0.
      pose proof (list16 a (sub n 14 2) 1 La Ls ltac:(lia)) as N1.
      cbn [Nat.add] in N0, N1. rewrite N0, N1, !nth_sub by lia. exact D. }
    assert (S : sub (a ++ sub n 14 2) 0 14 = a) by (unfold sub at 1; cbn [skipn]; now apply firstn_app_exact).
    split; [rewrite app_length, La, sub_length; lia|].
    split; [apply bytes_ok_app; auto using bytes_ok_sub|].
    split.
    + unfold number_fits, number_len. rewrite D', S. unfold a. rewrite w_ident_text; auto using bytes_ok_sub.
      apply Nat.leb_le in A. exact A.
    + rewrite D', S. f_equal. f_equal.
      * apply w_ident_idem; auto using bytes_ok_sub. now apply Nat.leb_le in A.
      * unfold sub at 1. rewrite skipn_app_exact by auto. apply firstn_all2. rewrite sub_length; lia.
  - set (a := w_ident 13 (sub n 0 13)).
    assert (La : length a = 13%nat) by apply w_ident_length.
    assert (Ha : bytes_ok a) by (apply w_ident_ok, bytes_ok_sub; auto).
    destruct (w_index_spec (nth 13 n 0) ltac:(apply nth_byte_ok; auto; lia)) as (E13 & I13 & R13).
    destruct (w_index_spec (nth 14 n 0) ltac:(apply nth_byte_ok; auto; lia)) as (E14 & I14 & R14).
    destruct (w_index_spec (nth 15 n 0) ltac:(apply nth_byte_ok; auto; lia)) as (E15 & I15 & R15).
    set (m := a ++ [w_index (nth 13 n 0); w_index (nth 14 n 0); w_index (nth 15 n 0)]).
    assert (N13 : nth 13 m 0 = w_index (nth 13 n 0)) by (unfold m; rewrite app_nth2, La by lia; reflexivity).
    assert (N14 : nth 14 m 0 = w_index (nth 14 n 0)) by (unfold m; rewrite app_nth2, La by lia; reflexivity).
    assert (N15 : nth 15 m 0 = w_index (nth 15 n 0)) by (unfold m; rewrite app_nth2, La by lia; reflexivity).
    assert (DI : forall b, digitb (if in_cutset b || (128 <=? b) then 0 else b) = true -> digitb b = true).
    { intros b. destruct (in_cutset b || (128 <=? b)); intros Q; [discriminate Q|exact Q]. }
    assert (D' : number_digits m = false).
    { unfold number_digits in *. rewrite N14, N15, E14, E15.
      apply not_true_iff_false. intros Q. apply andb_prop in Q as [Q1 Q2].
      apply DI in Q1. apply DI in Q2. rewrite Q1, Q2 in D. discriminate. }
    assert (S : sub m 0 13 = a) by (unfold sub, m; cbn [skipn]; now apply firstn_app_exact).
    split; [unfold m; rewrite app_length, La; reflexivity|].
    split; [unfold m; apply bytes_ok_app; split; auto; rewrite !bytes_ok_cons; repeat split; try apply R13; try apply R14; try apply R15; constructor|].
    split.
    + unfold number_fits, number_len. rewrite D', S. unfold a. rewrite w_ident_text; auto using bytes_ok_sub.
      apply Nat.leb_le in A. exact A.
    + rewrite D', S, N13, N14, N15, I13, I14, I15. f_equal. unfold m. f_equal.
      apply w_ident_idem; auto using bytes_ok_sub. now apply Nat.leb_le in A.
Qed.

(** ** The file *)

Definition ident_fields :=
  [f_nation; f_number; f_string 36; f_id 4; f_id 4; f_id 4; f_string 36; f_string 36; f_date; f_id 2].

Definition ident_fits (d : bytes) : Prop := number_fits (sub d 1 16) = true.

Lemma ident_parse cm d : bytes_ok d -> (143 <= length d)%nat ->
  exists x, unmarshal_identification cm d = Ok x /\
    append_identification (Some x) = w_at ident_fields d 0.
Proof.
  intros H L. unfold unmarshal_identification. rewrite long_guard by auto.
  use_field card_number_implements d 1%nat 16%nat; [|discriminate].
  use_field (string_implements cm 36 ltac:(lia)) d 17%nat 36%nat; [|discriminate].
  use_field time_implements d 53%nat 4%nat; [|discriminate].
  use_field time_implements d 57%nat 4%nat; [|discriminate].
  use_field time_implements d 61%nat 4%nat; [|discriminate].
  use_field (string_implements cm 36 ltac:(lia)) d 65%nat 36%nat; [|discriminate].
  use_field (string_implements cm 36 ltac:(lia)) d 101%nat 36%nat; [|discriminate].
  use_field date_implements d 137%nat 4%nat; [|discriminate].
  use_field (ia5_implements 2 ltac:(lia)) d 141%nat 2%nat; [|discriminate].
  eexists. split; [reflexivity|].
  unfold append_identification. cbn [ident_card_part ident_holder_part].
  unfold append_card_identification, append_holder_identification.
  cbn [id_nation id_number id_authority id_issue id_begin id_expiry ih_surname ih_first_names ih_birth ih_language].
  rewrite W0, W1, W2, W3, W4, W5, W6, W7.
  cbn [f_w f_id f_string f_fun f_date bind] in *. apply Ok_inj in W. rewrite W.
  unfold ident_fields. cbn [w_at f_nation f_number f_string f_fun f_id f_date f_len f_w Nat.add bind].
  rewrite nth_sub by lia. cbn [Nat.add].
  destruct (nation_knownb (nth 0 d 0)) eqn:K.
  - apply nation_knownb_iff, nation_known_enum in K as (v & U & M & N). rewrite U, M, N.
    cbn [bind]. rewrite sub_1 by lia. rewrite <- !app_assoc, app_nil_r. reflexivity.
  - rewrite nation_unknown_enum by (rewrite <- nation_knownb_iff; congruence). reflexivity.
Qed.

Lemma ident_writes cm d x : bytes_ok d -> (143 <= length d)%nat ->
  unmarshal_identification cm d = Ok x -> append_identification (Some x) = w_at ident_fields d 0.
Proof.
  intros H L U. destruct (ident_parse cm d H L) as (x' & U' & E). rewrite U in U'.
  apply Ok_inj in U'. subst. exact E.
Qed.

Lemma w_number_length n : length n = 16%nat -> length (w_number n) = 16%nat.
Proof.
  intros L. unfold w_number. destruct (number_digits n); rewrite app_length, w_ident_length; [|reflexivity].
  rewrite sub_length; lia.
Qed.

Lemma w_string_length d : (1 <= length d)%nat -> length (w_string d) = length d.
Proof. destruct d; [simpl; lia|reflexivity]. Qed.

Lemma ident_w_length d d' : bytes_ok d -> (143 <= length d)%nat -> w_at ident_fields d 0 = Ok d' -> length d' = 143%nat.
Proof.
  intros H L E. unfold ident_fields in E.
  cbn [w_at f_nation f_number f_string f_fun f_id f_date f_len f_w Nat.add bind] in E.
  destruct (nation_knownb _); [|discriminate]. cbn [bind] in E. apply Ok_inj in E. subst d'.
  destruct (good_date (sub d 137 4)) as [_ G]; [apply bytes_ok_sub; auto|apply sub_length; simpl; lia|reflexivity|].
  destruct (G _ eq_refl) as (LD & _). change (f_len f_date) with 4%nat in LD.
  rewrite !app_length, LD, w_number_length, !w_string_length, !sub_length; try lia; try (rewrite sub_length; lia).
  reflexivity.
Qed.

Lemma ident_codec cm :
  codec_on ident_fits (unmarshal_identification cm) (fun x => append_identification (Some x))
    (fun d => (143 <=? length d)%nat) (fun d => w_at ident_fields d 0).
Proof.
  intros d H. destruct (Nat.leb_spec 143 (length d)) as [L|L].
  2:{ unfold unmarshal_identification. destruct (Nat.ltb_spec (length d) 143); [reflexivity|lia]. }
  destruct (ident_parse cm d H L) as (x & -> & E).
  split; [reflexivity|].
  assert (WP : w_at ident_fields d 0 <> Panic).
  { unfold ident_fields. cbn [w_at f_nation f_number f_string f_fun f_id f_date f_len f_w Nat.add bind].
    destruct (nation_knownb _); discriminate. }
  split; [rewrite E; exact WP|].
  intros P. split; [exact E|]. intros d' E'.
  assert (Acc : acc_at ident_fields d 0 = true).
  { unfold ident_fits in P. unfold ident_fields.
    cbn [acc_at f_nation f_number f_string f_fun f_id f_date f_len f_acc Nat.add andb]. rewrite P. reflexivity. }
  destruct (w_at_good ident_fields d ltac:(repeat (apply Forall_cons; [solve [auto using good_number, good_nation, good_id, good_date | apply good_string; lia]|]); apply Forall_nil) H L Acc)
    as [_ G].
  destruct (G d' E') as (L' & H' & A' & W').
  change (flen ident_fields) with 143%nat in L'.
  repeat split; auto; try lia.
  unfold ident_fits. unfold ident_fields in A'.
    cbn [acc_at f_nation f_number f_string f_fun f_id f_date f_len f_acc Nat.add andb] in A'.
    rewrite andb_true_r in A'. exact A'.
Qed.
