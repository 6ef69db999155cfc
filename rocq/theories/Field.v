(** A small calculus for decode-then-encode proofs.

    A [field] describes what a pair of decoder and encoder does to a block of
    bytes of fixed length: which blocks the decoder accepts, and what the encoder
    writes for an accepted block.  Nothing here is a model of Go code; the
    lemmas [implements] in the P_ files connect the models to these descriptions. *)

From Verif Require Import Base Enums DDScalar Utf8 DDString DDRecord P_Scalar Props_Scalar P_Utf8 P_String.

Record field := F { f_len : nat; f_acc : bytes -> bool; f_w : bytes -> res bytes }.

(** Encoding an accepted block never panics, and what is written is accepted
    again and rewritten unchanged. *)
Definition good (f : field) : Prop :=
  forall d, bytes_ok d -> length d = f_len f -> f_acc f d = true ->
    f_w f d <> Panic /\
    forall d', f_w f d = Ok d' ->
      length d' = f_len f /\ bytes_ok d' /\ f_acc f d' = true /\ f_w f d' = Ok d'.

(** The decoder accepts exactly the described blocks, never panics, and the
    encoder applied to the decoded value writes the described bytes. *)
Definition implements {X} (un : bytes -> res X) (ap : X -> res bytes) (f : field) : Prop :=
  forall d, bytes_ok d -> length d = f_len f ->
    match un d with
    | Ok x => f_acc f d = true /\ ap x = f_w f d
    | Err _ => f_acc f d = false
    | Panic => False
    end.

(** ** Sequencing *)

Definition f_nil : field := F 0 (fun _ => true) (fun _ => Ok []).

Definition f_cons (f g : field) : field :=
  F (f_len f + f_len g)
    (fun d => f_acc f (firstn (f_len f) d) && f_acc g (skipn (f_len f) d))
    (fun d => let* a := f_w f (firstn (f_len f) d) in
              let* b := f_w g (skipn (f_len f) d) in Ok (a ++ b)).

Fixpoint fseq (fs : list field) : field :=
  match fs with
  | [] => f_nil
  | f :: t => f_cons f (fseq t)
  end.

(** The same on offsets, which is how the code reads its fields. *)
Fixpoint acc_at (fs : list field) (d : bytes) (i : nat) : bool :=
  match fs with
  | [] => true
  | f :: t => f_acc f (sub d i (f_len f)) && acc_at t d (i + f_len f)
  end.

Fixpoint w_at (fs : list field) (d : bytes) (i : nat) : res bytes :=
  match fs with
  | [] => Ok []
  | f :: t => let* a := f_w f (sub d i (f_len f)) in
              let* b := w_at t d (i + f_len f) in Ok (a ++ b)
  end.

Lemma fseq_acc_at fs d i : f_acc (fseq fs) (skipn i d) = acc_at fs d i.
Proof.
  revert i; induction fs as [|f t IH]; intros i; cbn [fseq f_nil f_cons f_acc acc_at]; auto.
  rewrite skipn_skipn, <- IH. reflexivity.
Qed.

Lemma fseq_w_at fs d i : f_w (fseq fs) (skipn i d) = w_at fs d i.
Proof.
  revert i; induction fs as [|f t IH]; intros i; cbn [fseq f_nil f_cons f_w w_at]; auto.
  rewrite skipn_skipn, <- IH. reflexivity.
Qed.

Lemma fseq_acc fs d : f_acc (fseq fs) d = acc_at fs d 0.
Proof. apply (fseq_acc_at fs d 0). Qed.

Lemma fseq_w fs d : f_w (fseq fs) d = w_at fs d 0.
Proof. apply (fseq_w_at fs d 0). Qed.

Lemma good_nil : good f_nil.
Proof.
  intros d _ _ _. split; [discriminate|]. intros d' E. apply Ok_inj in E; subst.
  repeat split; auto. constructor.
Qed.

Lemma firstn_app_exact {A} (a b : list A) n : length a = n -> firstn n (a ++ b) = a.
Proof. intros <-. rewrite firstn_app, Nat.sub_diag, firstn_all, app_nil_r. reflexivity. Qed.

Lemma skipn_app_exact {A} (a b : list A) n : length a = n -> skipn n (a ++ b) = b.
Proof. intros <-. rewrite skipn_app, Nat.sub_diag, skipn_all. reflexivity. Qed.

Lemma good_cons f g : good f -> good g -> good (f_cons f g).
Proof.
  intros Gf Gg d H L A. cbn in *. apply andb_prop in A as [Af Ag].
  destruct (Gf (firstn (f_len f) d)) as [Pf Wf]; auto using bytes_ok_firstn.
  { rewrite firstn_length. lia. }
  destruct (Gg (skipn (f_len f) d)) as [Pg Wg]; auto using bytes_ok_skipn.
  { rewrite skipn_length. lia. }
  destruct (f_w f (firstn (f_len f) d)) as [a|e|] eqn:Ea; cbn; [|split; congruence|congruence].
  destruct (f_w g (skipn (f_len f) d)) as [b|e|] eqn:Eb; cbn; [|split; congruence|congruence].
  split; [discriminate|]. intros d' E. apply Ok_inj in E; subst d'.
  destruct (Wf a eq_refl) as (La & Ha & Aa & Wa), (Wg b eq_refl) as (Lb & Hb & Ab & Wb).
  rewrite app_length, firstn_app_exact, skipn_app_exact by auto.
  rewrite Wa, Wb, Aa, Ab. cbn. repeat split; auto. apply bytes_ok_app; auto.
Qed.

Lemma good_seq fs : Forall good fs -> good (fseq fs).
Proof. induction 1; cbn [fseq]; auto using good_nil, good_cons. Qed.

(** ** Basic fields *)

(** A block written back verbatim. *)
Definition f_id (n : nat) : field := F n (fun _ => true) (fun d => Ok d).

Lemma good_id n : good (f_id n).
Proof.
  intros d H L _. split; [discriminate|]. intros d' E. apply Ok_inj in E; subst. auto.
Qed.

(** A block accepted under a condition and then written back verbatim. *)
Definition f_if (n : nat) (c : bytes -> bool) : field := F n c (fun d => Ok d).

Lemma good_if n c : good (f_if n c).
Proof.
  intros d H L A. split; [discriminate|]. intros d' E. apply Ok_inj in E; subst. auto.
Qed.

Definition f_enum (T : enum_table) : field :=
  f_if 1 (fun d => is_ok (unmarshal_enum T (nth 0 d 0))).

(** A block written back through an idempotent total function. *)
Definition f_fun (n : nat) (w : bytes -> bytes) : field := F n (fun _ => true) (fun d => Ok (w d)).

Lemma good_fun n w :
  (forall d, bytes_ok d -> length d = n -> length (w d) = n /\ bytes_ok (w d) /\ w (w d) = w d) ->
  good (f_fun n w).
Proof.
  intros G d H L _. destruct (G d H L) as (A & B & C). split; [discriminate|].
  intros d' E. cbn in E. apply Ok_inj in E; subst. cbn. repeat split; auto. now rewrite C.
Qed.

(** Code-paged text. *)
Definition w_string (d : bytes) : bytes := norm_page (nth 0 d 0) :: skipn 1 d.
Definition f_string (n : nat) : field := f_fun n w_string.

Lemma norm_page_range cp : byte_ok (norm_page cp).
Proof.
  unfold norm_page, code_page_of_encoding, byte_ok.
  repeat match goal with |- context [match ?x with _ => _ end] => destruct x; try lia end.
Qed.

Lemma norm_page_idem cp : byte_ok cp -> norm_page (norm_page cp) = norm_page cp.
Proof.
  intros H.
  assert (S : forallb (fun c => norm_page (norm_page c) =? norm_page c) (zrange 256) = true)
    by (vm_compute; reflexivity).
  pose proof (sweep _ _ S cp H) as Q. cbv beta in Q. lia.
Qed.

Lemma good_string n : (1 <= n)%nat -> good (f_string n).
Proof.
  intros N. apply good_fun. intros d H L. unfold w_string.
  destruct d as [|b d]; [simpl in L; lia|]. rewrite bytes_ok_cons in H. destruct H as [Hb H].
  cbn [nth skipn length] in *. repeat split; auto.
  - rewrite bytes_ok_cons. split; auto using norm_page_range.
  - now rewrite norm_page_idem.
Qed.

(** A nation byte: always accepted, but only known codes can be written. *)
Definition nation_knownb (b : Z) : bool := is_ok (unmarshal_enum nation_numeric_table b).

Definition f_nation : field :=
  F 1 (fun _ => true) (fun d => if nation_knownb (nth 0 d 0) then Ok d else fail).

Lemma nation_knownb_iff b : nation_knownb b = true <-> nation_known b.
Proof.
  unfold nation_knownb. split.
  - destruct (unmarshal_enum _ b) as [v| |] eqn:E; try discriminate. intros _.
    exists v. now apply unmarshal_enum_sound.
  - intros K. destruct (nation_known_enum b K) as (v & -> & _). reflexivity.
Qed.

Lemma good_nation : good f_nation.
Proof.
  intros d H L _. cbn in *. destruct (nation_knownb (nth 0 d 0)) eqn:E.
  - split; [discriminate|]. intros d' E'. apply Ok_inj in E'; subst. rewrite E. auto.
  - split; [discriminate|]. discriminate.
Qed.

(** A vehicle registration. *)
Definition f_vreg : field := fseq [f_nation; f_string 14].

Lemma good_vreg : good f_vreg.
Proof.
  apply good_seq. repeat (apply Forall_cons; [auto using good_nation, good_string with arith|]).
  constructor.
Qed.

Lemma vreg_implements cm :
  implements (unmarshal_vreg cm) (fun v => append_vreg (Some v)) f_vreg.
Proof.
  intros d H L. cbn in L. destruct (unmarshal_vreg_ok cm d L) as [v Ev]. rewrite Ev. split; [reflexivity|].
  destruct (vreg_write_back cm d v Ev) as [K U].
  unfold f_vreg. rewrite fseq_w. cbn [w_at f_nation f_string f_fun f_len f_w Nat.add].
  rewrite nth_sub by lia. cbn [Nat.add]. destruct (nation_knownb (nth 0 d 0)) eqn:E.
  - rewrite K by (now apply nation_knownb_iff). cbn [bind app]. rewrite app_nil_r.
    unfold w_string. rewrite nth_sub by lia. cbn [Nat.add Nat.sub].
    rewrite sub_1 by lia. unfold sub. rewrite skipn_firstn_comm, skipn_skipn. reflexivity.
  - rewrite U by (rewrite <- nation_knownb_iff; now rewrite E). reflexivity.
Qed.

(** Card structure versions: a low nibble above nine spills into the high one. *)
Definition w_csv_byte (b : Z) : Z := bcd2 (b / 16 * 10 + b mod 16).
Definition w_csv (d : bytes) : bytes := [w_csv_byte (nth 0 d 0); w_csv_byte (nth 1 d 0)].
Definition f_csv : field := f_fun 2 w_csv.

Lemma w_csv_byte_sweep :
  forallb (fun b => (w_csv_byte (w_csv_byte b) =? w_csv_byte b) &&
                    (0 <=? w_csv_byte b) && (w_csv_byte b <? 256)) (zrange 256) = true.
Proof. vm_compute. reflexivity. Qed.

Lemma w_csv_byte_ok b : byte_ok b -> byte_ok (w_csv_byte b) /\ w_csv_byte (w_csv_byte b) = w_csv_byte b.
Proof.
  intros H. pose proof (sweep _ _ w_csv_byte_sweep b H) as Q. cbv beta in Q. unfold byte_ok. lia.
Qed.

Lemma good_csv : good f_csv.
Proof.
  apply good_fun. intros d H L. destruct d as [|b0 [|b1 [|]]]; try (simpl in L; lia).
  rewrite !bytes_ok_cons in H. destruct H as (H0 & H1 & _). unfold w_csv. cbn [nth].
  destruct (w_csv_byte_ok b0 H0) as [? E0], (w_csv_byte_ok b1 H1) as [? E1].
  rewrite E0, E1. repeat split; auto. rewrite !bytes_ok_cons. repeat split; auto; try apply H; try constructor; apply H2.
Qed.

Lemma csv_implements :
  implements unmarshal_csv (fun c => append_csv (Some c)) f_csv.
Proof.
  intros d H L. cbn in L. unfold unmarshal_csv. rewrite L. cbn [Nat.eqb guard bind].
  split; [reflexivity|].
  destruct d as [|b0 [|b1 [|]]]; try (simpl in L; lia). reflexivity.
Qed.

(** Dates. *)
Definition w_date (d : bytes) : bytes :=
  match unmarshal_date d with
  | Ok x => match append_date (Some x) with Ok d' => d' | _ => [] end
  | _ => []
  end.
Definition f_date : field := f_fun 4 w_date.

Lemma date_digits_range x y : 0 <= x -> 0 <= y ->
  byte_ok (date_digits x y) /\ date_digits x y / 16 <= 9 /\ date_digits x y mod 16 <= 9.
Proof. intros. rewrite date_digits_eq by auto. unfold byte_ok. lia. Qed.

Lemma w_date_eq b0 b1 b2 b3 :
  let y := b0 / 16 * 1000 + b0 mod 16 * 100 + b1 / 16 * 10 + b1 mod 16 in
  let m := b2 / 16 * 10 + b2 mod 16 in
  let dd := b3 / 16 * 10 + b3 mod 16 in
  w_date [b0; b1; b2; b3] =
  [date_digits (Z.quot y 1000) (Z.quot y 100); date_digits (Z.quot y 10) y;
   date_digits (Z.quot m 10) m; date_digits (Z.quot dd 10) dd].
Proof.
  intros y m dd. unfold w_date, unmarshal_date. cbn [length Nat.eqb guard bind nth].
  fold y m dd. rewrite date_append_eq by reflexivity. reflexivity.
Qed.

Lemma date_implements :
  implements unmarshal_date (fun x => append_date (Some x)) f_date.
Proof.
  intros d H L. cbn in L. destruct d as [|b0 [|b1 [|b2 [|b3 [|]]]]]; try (simpl in L; lia).
  unfold unmarshal_date at 1. cbn [length Nat.eqb guard bind nth]. split; [reflexivity|].
  cbn [f_w f_date f_fun]. rewrite w_date_eq, date_append_eq by reflexivity. reflexivity.
Qed.

Lemma two_digit b : byte_ok b ->
  let m := b / 16 * 10 + b mod 16 in
  b / 16 <= 9 -> b mod 16 <= 9 -> date_digits (Z.quot m 10) m = b.
Proof.
  intros H m A B. unfold byte_ok in H. subst m. rewrite date_digits_eq by lia. lia.
Qed.

Lemma good_date : good f_date.
Proof.
  apply good_fun. intros d H L. destruct d as [|b0 [|b1 [|b2 [|b3 [|]]]]]; try (simpl in L; lia).
  rewrite !bytes_ok_cons in H. destruct H as (H0 & H1 & H2 & H3 & _). unfold byte_ok in H0, H1, H2, H3.
  rewrite w_date_eq.
  set (y := b0 / 16 * 1000 + b0 mod 16 * 100 + b1 / 16 * 10 + b1 mod 16).
  set (m := b2 / 16 * 10 + b2 mod 16). set (dd := b3 / 16 * 10 + b3 mod 16).
  assert (Hy : 0 <= y) by (subst y; lia). assert (Hm : 0 <= m) by (subst m; lia).
  assert (Hd : 0 <= dd) by (subst dd; lia). clearbody y m dd.
  destruct (date_digits_range (Z.quot y 1000) (Z.quot y 100)) as (R0 & A0 & B0); try (apply Z.quot_pos; lia).
  destruct (date_digits_range (Z.quot y 10) y) as (R1 & A1 & B1); try (apply Z.quot_pos; lia); auto.
  destruct (date_digits_range (Z.quot m 10) m) as (R2 & A2 & B2); try (apply Z.quot_pos; lia); auto.
  destruct (date_digits_range (Z.quot dd 10) dd) as (R3 & A3 & B3); try (apply Z.quot_pos; lia); auto.
  set (c0 := date_digits (Z.quot y 1000) (Z.quot y 100)) in *.
  set (c1 := date_digits (Z.quot y 10) y) in *.
  set (c2 := date_digits (Z.quot m 10) m) in *.
  set (c3 := date_digits (Z.quot dd 10) dd) in *. clearbody c0 c1 c2 c3.
  split; [reflexivity|]. split; [rewrite !bytes_ok_cons; repeat split; try apply R0; try apply R1; try apply R2; try apply R3; constructor|].
  rewrite w_date_eq. destruct (year_bytes c0 c1 R0 R1) as [_ Y].
  destruct Y as [-> ->]; [auto|]. rewrite !two_digit by auto. reflexivity.
Qed.

(** Months and years: blocks with a non-decimal nibble are written as zeros. *)
Definition decimalb (d : bytes) : bool := forallb (fun b => (b / 16 <? 10) && (b mod 16 <? 10)) d.
Definition w_month_year (d : bytes) : bytes := if decimalb d then d else [0; 0].
Definition f_month_year : field := f_fun 2 w_month_year.

Lemma good_month_year : good f_month_year.
Proof.
  apply good_fun. intros d H L. unfold w_month_year. destruct (decimalb d) eqn:E.
  - rewrite E. auto.
  - repeat split; auto. rewrite !bytes_ok_cons. unfold byte_ok. repeat split; try lia. constructor.
Qed.

Lemma unmarshal_month_year_ok d : length d = 2%nat -> exists m, unmarshal_month_year d = Ok m.
Proof.
  intros L. unfold unmarshal_month_year. rewrite L. cbn [Nat.eqb guard bind].
  destruct (decode_bcd d) eqn:E; [destruct (0 <? a); eauto| eauto|].
  exfalso. unfold decode_bcd in E. destruct (_ =? _)%nat; [discriminate|].
  destruct (_ && _); discriminate.
Qed.

Lemma append_month_year_eq r m y :
  length r = 2%nat -> 0 <= m < 100 -> 0 <= y < 10000 ->
  append_month_year (Some (mkMY r m y)) =
  Ok [m / 10 * 16 + m mod 10; y mod 100 / 10 * 16 + y mod 10].
Proof.
  intros L Hm Hy. destruct r as [|b0 [|b1 [|]]]; try (simpl in L; lia). unfold append_month_year.
  cbn [odflt my_raw my_month my_year length Nat.ltb Nat.leb raw_canvas Nat.eqb bind].
  rewrite set2. unfold u8.
  rewrite (Z.rem_mod_nonneg y 100) by lia.
  rewrite !Z.quot_div_nonneg, !Z.rem_mod_nonneg, !lor_digits by lia.
  f_equal. f_equal; [lia|]. f_equal. lia.
Qed.

Lemma month_year_implements :
  implements unmarshal_month_year (fun m => append_month_year (Some m)) f_month_year.
Proof.
  intros d H L. cbn in L. destruct (unmarshal_month_year_ok d L) as [m0 E0].
  rewrite E0. split; [reflexivity|]. cbn [f_w f_month_year f_fun]. revert E0.
  unfold unmarshal_month_year. rewrite L. cbn [Nat.eqb guard bind].
  destruct d as [|b0 [|b1 [|]]]; try (simpl in L; lia).
  pose proof H as B. rewrite !bytes_ok_cons in H. destruct H as (H0 & H1 & _). unfold byte_ok in H0, H1.
  unfold decode_bcd. cbn [length Nat.eqb].
  assert (Q : forallb (fun d => d <? 10) (nibbles [b0; b1]) = decimalb [b0; b1])
    by (unfold decimalb; cbn; rewrite !andb_true_r, <- !andb_assoc; reflexivity).
  rewrite Q. unfold w_month_year. destruct (decimalb [b0; b1]) eqn:D.
  - assert (V : dec_val (nibbles [b0; b1]) =
                b0 / 16 * 1000 + b0 mod 16 * 100 + b1 / 16 * 10 + b1 mod 16) by (cbn; lia).
    rewrite V. set (v := b0 / 16 * 1000 + b0 mod 16 * 100 + b1 / 16 * 10 + b1 mod 16).
    unfold decimalb in D. cbn in D.
    assert (Rv : 0 <= v <= 9999) by (subst v; lia).
    destruct (Z.leb_spec v max_int64); [|unfold max_int64 in *; lia]. cbn [andb].
    destruct (Z.ltb_spec 0 v); intros E; apply Ok_inj in E; subst m0.
    + rewrite append_month_year_eq by (try reflexivity; lia). f_equal. subst v.
      f_equal; [lia|f_equal; lia].
    + rewrite append_month_year_eq by (try reflexivity; lia).
      assert (b0 = 0 /\ b1 = 0) as [-> ->] by (subst v; lia). reflexivity.
  - cbn [andb]. intros E; apply Ok_inj in E; subst m0.
    rewrite append_month_year_eq by (try reflexivity; lia). reflexivity.
Qed.

(** Times, odometers, text and identifiers. *)
Lemma time_implements : implements unmarshal_time append_time (f_id 4).
Proof.
  intros d H L. cbn in L. pose proof (unmarshal_time_ok d L) as E. rewrite E.
  split; [reflexivity|]. eapply time_round_trip; eauto.
Qed.

Lemma string_implements cm n : (2 <= n)%nat ->
  implements (unmarshal_string_value cm) (fun v => append_string_value (Some v)) (f_string n).
Proof.
  intros N d H L. cbn in L. destruct (unmarshal_string_ok cm d) as [v E]; [lia|].
  rewrite E. split; [reflexivity|]. apply (string_write_back cm d _ E).
Qed.

Lemma ia5_implements n : (1 <= n)%nat ->
  implements unmarshal_ia5 (fun v => append_ia5 (Some v)) (f_id n).
Proof.
  intros N d H L. cbn in L. pose proof (unmarshal_ia5_ok d ltac:(lia)) as E. rewrite E.
  split; [reflexivity|]. apply (ia5_round_trip _ _ E).
Qed.

(** Packed decimal counters. *)
Lemma bcd_implements n : (1 <= n <= 4)%nat ->
  implements unmarshal_bcd_string (fun v => append_bcd_string (Some v)) (f_if n decimalb).
Proof.
  intros N d H L. cbn in L.
  assert (Q : forallb (fun d => d <? 10) (nibbles d) = decimalb d).
  { clear. induction d as [|b d IH]; [reflexivity|]. cbn in *. rewrite IH.
    now rewrite andb_assoc. }
  destruct (unmarshal_bcd_string d) as [x|e|] eqn:U.
  - split; [|apply (bcd_string_round_trip d x); auto; lia].
    cbn. rewrite <- Q. unfold unmarshal_bcd_string, decode_bcd in U.
    destruct (Nat.eqb_spec (length d) 0); [lia|]. cbn in U. destruct (forallb _ _); [reflexivity|discriminate].
  - cbn. destruct (decimalb d) eqn:E; [|reflexivity]. exfalso.
    assert (B : dec_val (nibbles d) <= max_int64).
    { pose proof (decimal_digits_ok _ H Q) as D.
      pose proof (dec_val_range (nibbles d) D) as R. rewrite nibbles_length in R.
      assert (10 ^ Z.of_nat (2 * length d) <= 10 ^ 8) by (apply Z.pow_le_mono_r; lia).
      unfold max_int64. change (10 ^ 8) with 100000000 in *. lia. }
    unfold unmarshal_bcd_string, decode_bcd in U. rewrite Q in U.
    destruct (Nat.eqb_spec (length d) 0); [lia|]. cbn in U.
    destruct (Z.leb_spec (dec_val (nibbles d)) max_int64); [discriminate|lia].
  - exfalso. unfold unmarshal_bcd_string in U. apply bind_panic in U as [U|(? & _ & U)].
    + now apply guard_no_panic in U.
    + apply bind_panic in U as [U|(? & _ & U)]; [now apply decode_bcd_no_panic in U|discriminate].
Qed.

(** ** Whole files *)

(** [codec un ap A W]: the decoder accepts exactly [A]; the encoder applied to a
    decoded value writes [W d] (or fails like it), never panicking; and what it
    writes is not longer, is accepted again and rewritten unchanged. *)
Definition codec {X} (un : bytes -> res X) (ap : X -> res bytes)
    (A : bytes -> bool) (W : bytes -> res bytes) : Prop :=
  forall d, bytes_ok d ->
    match un d with
    | Ok x =>
        A d = true /\ ap x = W d /\ W d <> Panic /\
        forall d', W d = Ok d' ->
          bytes_ok d' /\ (length d' <= length d)%nat /\ A d' = true /\ W d' = Ok d'
    | Err _ => A d = false
    | Panic => False
    end.

Definition flen (fs : list field) : nat := f_len (fseq fs).

Lemma acc_at_firstn fs d i k :
  (i + flen fs <= k)%nat -> acc_at fs (firstn k d) i = acc_at fs d i.
Proof.
  revert i; induction fs as [|f t IH]; intros i H; [reflexivity|].
  unfold flen in *. cbn [fseq f_cons f_len acc_at] in *. rewrite IH by lia. do 2 f_equal.
  unfold sub. rewrite skipn_firstn_comm, firstn_firstn. f_equal. lia.
Qed.

Lemma w_at_firstn fs d i k :
  (i + flen fs <= k)%nat -> w_at fs (firstn k d) i = w_at fs d i.
Proof.
  revert i; induction fs as [|f t IH]; intros i H; [reflexivity|].
  unfold flen in *. cbn [fseq f_cons f_len w_at] in *. rewrite IH by lia. do 2 f_equal.
  unfold sub. rewrite skipn_firstn_comm, firstn_firstn. f_equal. lia.
Qed.

(** Files whose trailing bytes are ignored. *)
Definition implements_ge {X} (un : bytes -> res X) (ap : X -> res bytes) (fs : list field) : Prop :=
  forall d, bytes_ok d -> (flen fs <= length d)%nat ->
    match un d with
    | Ok x => acc_at fs d 0 = true /\ ap x = w_at fs d 0
    | Err _ => acc_at fs d 0 = false
    | Panic => False
    end.

Lemma w_at_good fs d : Forall good fs -> bytes_ok d -> (flen fs <= length d)%nat ->
  acc_at fs d 0 = true ->
  w_at fs d 0 <> Panic /\
  forall d', w_at fs d 0 = Ok d' ->
    length d' = flen fs /\ bytes_ok d' /\ acc_at fs d' 0 = true /\ w_at fs d' 0 = Ok d'.
Proof.
  intros G H L A. pose proof (good_seq fs G (firstn (flen fs) d)) as Q.
  rewrite !fseq_acc, !fseq_w, acc_at_firstn, w_at_firstn in Q by lia.
  destruct Q as [P Q]; auto using bytes_ok_firstn. { rewrite firstn_length. unfold flen in *. lia. }
  split; auto. intros d' E. specialize (Q d' E). rewrite fseq_acc, fseq_w in Q. exact Q.
Qed.

Lemma codec_ge {X} (un : bytes -> res X) ap fs :
  implements_ge un ap fs -> Forall good fs ->
  (forall d, (length d < flen fs)%nat -> exists e, un d = Err e) ->
  codec un ap (fun d => (flen fs <=? length d)%nat && acc_at fs d 0) (fun d => w_at fs d 0).
Proof.
  intros I G S d H. destruct (Nat.leb_spec (flen fs) (length d)) as [L|L].
  - pose proof (I d H L) as Q. destruct (un d) as [x|e|]; auto. destruct Q as [A E].
    destruct (w_at_good fs d G H L A) as [P Q]. rewrite A. repeat split; auto.
    all: destruct (Q _ H0) as (? & ? & ? & ?); auto; try lia.
    rewrite H1, Nat.leb_refl, H3. reflexivity.
  - destruct (S d L) as [e ->]. reflexivity.
Qed.

Lemma codec_eq {X} (un : bytes -> res X) ap fs :
  implements un ap (fseq fs) -> Forall good fs ->
  (forall d, length d <> flen fs -> exists e, un d = Err e) ->
  codec un ap (fun d => (length d =? flen fs)%nat && acc_at fs d 0) (fun d => w_at fs d 0).
Proof.
  intros I G S d H. destruct (Nat.eqb_spec (length d) (flen fs)) as [L|L].
  - pose proof (I d H L) as Q. rewrite fseq_acc, fseq_w in Q. destruct (un d) as [x|e|]; auto.
    destruct Q as [A E].
    destruct (w_at_good fs d G H ltac:(lia) A) as [P Q]. rewrite A. repeat split; auto.
    all: destruct (Q _ H0) as (? & ? & ? & ?); auto; try lia.
    rewrite H1, Nat.eqb_refl, H3. reflexivity.
  - destruct (S d L) as [e ->]. reflexivity.
Qed.

(** Proof steps: decode one field. *)
Ltac use_field L d i n :=
  let Q := fresh "Q" in
  assert (Q := L (sub d i n));
  match type of Q with
  | bytes_ok _ -> ?len -> _ =>
      let B := fresh "B" in let E := fresh "E" in
      assert (B : bytes_ok (sub d i n)) by (apply bytes_ok_sub; assumption);
      assert (E : len) by (apply sub_length; simpl in *; lia);
      specialize (Q B E); clear B E
  end;
  cbv beta in Q;
  match type of Q with
  | match ?u with _ => _ end =>
      let A := fresh "A" in let W := fresh "W" in
      destruct u eqn:?; cbn [bind]; [destruct Q as [A W]| |contradiction]
  end.

(** ** Exactness *)

(** Every field of [d] is written back unchanged. *)
Fixpoint exact_at (fs : list field) (d : bytes) (i : nat) : Prop :=
  match fs with
  | [] => True
  | f :: t => f_w f (sub d i (f_len f)) = Ok (sub d i (f_len f)) /\ exact_at t d (i + f_len f)
  end.

Lemma w_at_exact_gen fs : Forall good fs -> forall d i,
  bytes_ok d -> (i + flen fs <= length d)%nat -> acc_at fs d i = true ->
  (w_at fs d i = Ok (sub d i (flen fs)) <-> exact_at fs d i).
Proof.
  unfold flen. induction 1 as [|f t Gf Gt IH]; intros d i H L A.
  - cbn. split; auto.
  - cbn [fseq f_cons f_len w_at exact_at acc_at] in *. apply andb_prop in A as [Af At].
    set (n := f_len f) in *. set (m := f_len (fseq t)) in *.
    assert (Ln : length (sub d i n) = n) by (apply sub_length; lia).
    destruct (Gf (sub d i n)) as [P Q]; auto using bytes_ok_sub.
    specialize (IH d (i + n)%nat H ltac:(lia) At).
    rewrite <- IH. clear IH.
    rewrite <- (sub_join d i n m (i + n)) by reflexivity. split.
    + intros E. destruct (f_w f (sub d i n)) as [a| |]; try discriminate. cbn [bind] in E.
      destruct (w_at t d (i + n)) as [b| |]; try discriminate. cbn [bind] in E. apply Ok_inj in E.
      destruct (Q a eq_refl) as (La & _). fold n in La.
      assert (E1 : a = sub d i n).
      { apply (f_equal (firstn n)) in E. rewrite !firstn_app_exact in E by auto. exact E. }
      subst a. apply app_inv_head in E. subst b. auto.
    + intros [-> ->]. reflexivity.
Qed.

Lemma w_at_exact fs d : Forall good fs -> bytes_ok d -> length d = flen fs ->
  acc_at fs d 0 = true -> (w_at fs d 0 = Ok d <-> exact_at fs d 0).
Proof.
  intros G H L A. rewrite <- w_at_exact_gen by (auto; lia).
  rewrite sub_whole by lia. reflexivity.
Qed.

Lemma exact_string d i n : (1 <= n)%nat -> (i + n <= length d)%nat -> bytes_ok d ->
  (f_w (f_string n) (sub d i n) = Ok (sub d i n) <-> page_known (nth i d 0)).
Proof.
  intros N L H. cbn [f_w f_string f_fun]. unfold w_string. rewrite nth_sub by lia.
  rewrite Nat.add_0_r.
  replace (sub d i n) with (nth i d 0 :: skipn 1 (sub d i n)) at 2.
  2:{ pose proof (nth_sub d i n 0 0 ltac:(lia)) as E. rewrite Nat.add_0_r in E. rewrite <- E.
      pose proof (sub_length d i n L). destruct (sub d i n); [simpl in *; lia|reflexivity]. }
  pose proof (nth_byte_ok d i H ltac:(lia)) as B. split.
  - intros E. apply Ok_inj in E. injection E as E.
    destruct (in_dec Z.eq_dec (nth i d 0) known_pages) as [K|K]; [exact K|].
    rewrite norm_page_unknown in E by auto. rewrite <- E. unfold page_known, known_pages. simpl. tauto.
  - intros K. rewrite norm_page_known by auto. reflexivity.
Qed.

Lemma exact_nation d i : (i < length d)%nat ->
  (f_w f_nation (sub d i 1) = Ok (sub d i 1) <-> nation_known (nth i d 0)).
Proof.
  intros L. cbn [f_w f_nation]. rewrite nth_sub, Nat.add_0_r by lia. rewrite <- nation_knownb_iff.
  destruct (nation_knownb (nth i d 0)); split; auto; discriminate.
Qed.

Lemma exact_vreg d i : (i + 15 <= length d)%nat -> bytes_ok d ->
  (f_w f_vreg (sub d i 15) = Ok (sub d i 15) <-> nation_known (nth i d 0) /\ page_known (nth (i + 1) d 0)).
Proof.
  intros L H. unfold f_vreg. rewrite fseq_w.
  rewrite (w_at_exact [f_nation; f_string 14] (sub d i 15)).
  - cbn [exact_at f_nation f_len f_string f_fun Nat.add].
    change (F 1 (fun _ => true) _) with f_nation. change (f_fun 14 w_string) with (f_string 14).
    rewrite exact_nation, exact_string; auto using bytes_ok_sub; try (rewrite sub_length; lia); try lia.
    rewrite !nth_sub, Nat.add_0_r by lia. tauto.
  - repeat apply Forall_cons; auto using good_nation. apply good_string; lia.
  - apply bytes_ok_sub; auto.
  - apply sub_length; auto.
  - reflexivity.
Qed.

Lemma exact_month_year d i : (i + 2 <= length d)%nat -> bytes_ok d ->
  (f_w f_month_year (sub d i 2) = Ok (sub d i 2) <-> all_decimal (sub d i 2)).
Proof.
  intros L H. cbn [f_w f_month_year f_fun]. unfold w_month_year.
  assert (D : decimalb (sub d i 2) = true <-> all_decimal (sub d i 2)).
  { unfold decimalb, all_decimal. rewrite forallb_forall, Forall_forall.
    split; intros E b I; specialize (E b I); lia. }
  rewrite <- D. destruct (decimalb (sub d i 2)) eqn:E; [tauto|]. split; [|discriminate].
  intros Q. apply Ok_inj in Q. rewrite <- Q in E. discriminate.
Qed.

Lemma exact_csv d i : (i + 2 <= length d)%nat -> bytes_ok d ->
  (f_w f_csv (sub d i 2) = Ok (sub d i 2) <-> nth i d 0 mod 16 <= 9 /\ nth (i + 1) d 0 mod 16 <= 9).
Proof.
  intros L H. cbn [f_w f_csv f_fun]. unfold w_csv. rewrite !nth_sub, Nat.add_0_r by lia.
  assert (E : sub d i 2 = [nth i d 0; nth (i + 1) d 0]).
  { change (sub d i (1 + 1) = [nth i d 0; nth (i + 1) d 0]).
    rewrite <- (sub_join d i 1 1 (i + 1)) by reflexivity. rewrite !sub_1 by lia. reflexivity. }
  rewrite E.
  pose proof (csv_byte _ (nth_byte_ok d i H ltac:(lia))).
  pose proof (csv_byte _ (nth_byte_ok d (i + 1) H ltac:(lia))).
  unfold w_csv_byte. split.
  - intros Q. apply Ok_inj in Q. injection Q as Q1 Q2. apply H0 in Q1. apply H1 in Q2. lia.
  - intros [Q1 Q2]. f_equal. f_equal; [apply H0; lia|f_equal; apply H1; lia].
Qed.
