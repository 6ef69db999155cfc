(** Properties C79 and C80: writing back what was read from a vehicle unit. *)

From Verif Require Import Base Enums Chunks DDScalar Utf8 DDString DDRecord RawTypes Vu
  P_Scalar Props_Scalar P_Utf8 P_String Field P_Basic P_Record P_VuRecord Props_Layout Props_Overview.

(** ** C79: card numbers *)

(** The last two characters of a driver card's number, the replacement and the
    renewal index. *)
Definition no_indexes (kind : Z) (number : bytes) : Prop :=
  kind = 1 -> nth 14 number 0 = 0 /\ nth 15 number 0 = 0.

Lemma full_card_len kind state number : length number = 16%nat -> length (full_card kind state number) = 18%nat.
Proof. intros L. unfold full_card. rewrite !app_length, L. reflexivity. Qed.

Lemma full_card_bytes kind state number : byte_ok kind -> byte_ok state -> bytes_ok number ->
  bytes_ok (full_card kind state number).
Proof. intros A B C. unfold full_card. cbn [List.app]. now rewrite !bytes_ok_cons. Qed.

Lemma last_two (l : bytes) : length l = 16%nat ->
  (firstn 14 l ++ [0; 0] = l <-> nth 14 l 0 = 0 /\ nth 15 l 0 = 0).
Proof.
  intros L. do 16 (destruct l as [|? l]; [discriminate L|]). destruct l; [|discriminate L]. cbn. split.
  - intros E. injection E as -> ->. auto.
  - intros [-> ->]. reflexivity.
Qed.

(** A driver card's number loses both indexes; workshop and company card numbers are
    kept. *)
Theorem C79_card_number_partial : forall kind state number n,
  byte_ok kind -> byte_ok state -> bytes_ok number -> length number = 16%nat ->
  unmarshal_full_card_number (full_card kind state number) = Ok n ->
  append_full_card_number (Some n) =
    Ok (full_card kind state (if kind =? 1 then firstn 14 number ++ [0; 0] else number)) /\
  (append_full_card_number (Some n) = Ok (full_card kind state number) <-> no_indexes kind number).
Proof.
  intros k s l n Bk Bs Bl L H.
  pose proof (fcn_implements (full_card k s l) (full_card_bytes _ _ _ Bk Bs Bl) (full_card_len _ _ _ L)) as Q.
  rewrite H in Q. destruct Q as [_ Q]. cbn [f_fcn f_w] in Q. rewrite Q.
  assert (E : w_fcn (full_card k s l) = full_card k s (if k =? 1 then firstn 14 l ++ [0; 0] else l)).
  { unfold w_fcn, full_card. cbn [List.app nth]. destruct (k =? 1); reflexivity. }
  rewrite E. split; [reflexivity|]. unfold no_indexes. rewrite <- last_two by exact L.
  destruct (Z.eqb_spec k 1) as [K|K].
  - split.
    + intros X _. apply Ok_inj in X. unfold full_card in X. cbn [List.app] in X. injection X as X. exact X.
    + intros X. now rewrite X.
  - split; [intros _ C; contradiction|reflexivity].
Qed.

(** The same inside a number with a generation. *)
Theorem C79_number_and_generation_partial : forall kind state number generation n,
  byte_ok kind -> byte_ok state -> bytes_ok number -> byte_ok generation -> length number = 16%nat ->
  unmarshal_card_number_gen (full_card kind state number ++ [generation]) = Ok n ->
  append_card_number_gen (Some n) =
    Ok (full_card kind state (if kind =? 1 then firstn 14 number ++ [0; 0] else number) ++ [generation]).
Proof.
  intros k s l g n Bk Bs Bl Bg L H.
  assert (LL : length (full_card k s l ++ [g]) = 19%nat)
    by (rewrite app_length, full_card_len by exact L; reflexivity).
  assert (BB : bytes_ok (full_card k s l ++ [g])).
  { apply bytes_ok_app. split; [now apply full_card_bytes|]. constructor; [exact Bg|constructor]. }
  pose proof (number_gen_implements _ BB LL) as Q. rewrite H in Q. destruct Q as [_ Q]. rewrite Q.
  rewrite fseq_w. unfold number_gen_fields. cbn [w_at f_enum f_if f_len f_fcn f_w bind Nat.add].
  rewrite cut_here by (now apply full_card_len).
  rewrite cut_skip by (rewrite full_card_len; [lia|exact L]).
  rewrite full_card_len by exact L. cbn [Nat.sub]. rewrite cut_last by reflexivity. cbn [List.app].
  f_equal. f_equal. unfold w_fcn, full_card. cbn [List.app nth]. destruct (k =? 1); reflexivity.
Qed.

(** Driver card "12345678901234", issued once: both indexes are the character 0. *)
Definition sample_card : bytes :=
  full_card 1 13 (map (fun k => 48 + Z.of_nat k) [1; 2; 3; 4; 5; 6; 7; 8; 9; 0; 1; 2; 3; 4; 0; 0]%nat).

Theorem C79_card_number_refuted :
  exists n d, unmarshal_full_card_number sample_card = Ok n /\
    append_full_card_number (Some n) = Ok d /\ d <> sample_card /\ nth 16 sample_card 0 = 48 /\ nth 16 d 0 = 0.
Proof.
  do 2 eexists. split; [vm_compute; reflexivity|]. split; [vm_compute; reflexivity|].
  split; [intros E; vm_compute in E; discriminate E|]. split; reflexivity.
Qed.

Example C79_company_card_kept :
  exists n, unmarshal_full_card_number (full_card 4 13 (repeat 49 16)) = Ok n /\
    append_full_card_number (Some n) = Ok (full_card 4 13 (repeat 49 16)).
Proof. eexists. split; [vm_compute; reflexivity|]. vm_compute. reflexivity. Qed.

(** ** C80: card insertions and withdrawals *)

(** One VuCardIWRecord of the first generation. *)
Definition iw_bytes surname names kind state number expiry t_in odo_in slot t_out odo_out nation plate
  t_before manual : bytes :=
  (surname ++ names) ++ full_card kind state number ++ expiry ++ t_in ++ odo_in ++ [slot] ++ t_out ++
  odo_out ++ (([nation] ++ plate) ++ t_before) ++ [manual].

(** A decimal date. *)
Definition decimal_date (d : bytes) : Prop := Forall (fun b => b / 16 <= 9 /\ b mod 16 <= 9) d.

Lemma w_date_exact d : bytes_ok d -> length d = 4%nat -> (w_date d = d <-> decimal_date d).
Proof.
  intros H L. destruct d as [|b0 [|b1 [|b2 [|b3 [|]]]]]; try discriminate L.
  rewrite !bytes_ok_cons in H. destruct H as (H0 & H1 & H2 & H3 & _).
  rewrite w_date_eq. unfold decimal_date. unfold byte_ok in *.
  rewrite !Forall_cons_iff. split.
  - intros E. injection E as E0 E1 E2 E3.
    set (y := b0 / 16 * 1000 + b0 mod 16 * 100 + b1 / 16 * 10 + b1 mod 16) in *.
    assert (Hy : 0 <= y) by (subst y; lia).
    destruct (date_digits_range (Z.quot y 1000) (Z.quot y 100)) as (_ & A0 & B0); try (apply Z.quot_pos; lia).
    destruct (date_digits_range (Z.quot y 10) y) as (_ & A1 & B1); try (apply Z.quot_pos; lia); auto.
    destruct (date_digits_range (Z.quot (b2 / 16 * 10 + b2 mod 16) 10) (b2 / 16 * 10 + b2 mod 16))
      as (_ & A2 & B2); try (apply Z.quot_pos; lia); try lia.
    destruct (date_digits_range (Z.quot (b3 / 16 * 10 + b3 mod 16) 10) (b3 / 16 * 10 + b3 mod 16))
      as (_ & A3 & B3); try (apply Z.quot_pos; lia); try lia.
    rewrite E0 in A0, B0. rewrite E1 in A1, B1. rewrite E2 in A2, B2. rewrite E3 in A3, B3.
    repeat split; try assumption. constructor.
  - intros ((A0 & B0) & (A1 & B1) & (A2 & B2) & (A3 & B3) & _).
    destruct (year_bytes b0 b1 H0 H1) as [_ Y]. destruct Y as [-> ->]; [auto|].
    rewrite !two_digit by auto. reflexivity.
Qed.

(** [cut] for goals. *)
Ltac cutg :=
  repeat match goal with
  | |- context [sub (?l ++ ?m) 0 ?n] => rewrite (cut_here l m n) by lens
  | |- context [sub ?l 0 ?n] => rewrite (cut_last l n) by lens
  | |- context [sub (?l ++ ?m) ?i ?n] =>
      rewrite (cut_skip l m i n) by lens;
      repeat match goal with L : length ?x = _ |- context [length ?x] => rewrite L end;
      cbn [length Nat.sub]
  end; try reflexivity.

(** A text part starts with a code page the library knows. *)
Definition known_text (l : bytes) : Prop := page_known (nth 0 l 0).

(** Read and written back, the record is the same exactly if every part of it is
    one that survives; whatever happens, it is written with the same length or
    refused. *)
Theorem C80_card_iw_partial :
  forall cm surname names kind state number expiry t_in odo_in slot t_out odo_out nation plate
         t_before manual r d,
  d = iw_bytes surname names kind state number expiry t_in odo_in slot t_out odo_out nation plate
        t_before manual ->
  bytes_ok d ->
  length surname = 36%nat -> length names = 36%nat -> length number = 16%nat ->
  length expiry = 4%nat -> length t_in = 4%nat -> length odo_in = 3%nat -> length t_out = 4%nat ->
  length odo_out = 3%nat -> length plate = 14%nat -> length t_before = 4%nat ->
  unmarshal_card_iw cm d = Ok r ->
  (append_card_iw r = Ok d <->
     known_text surname /\ known_text names /\ no_indexes kind number /\ decimal_date expiry /\
     nation_known nation /\ known_text plate /\ (manual = 0 \/ manual = 1)) /\
  (append_card_iw r = fail \/
   exists d' r', append_card_iw r = Ok d' /\ length d' = 129%nat /\
     unmarshal_card_iw cm d' = Ok r' /\ append_card_iw r' = Ok d') /\
  (append_card_iw r = fail <-> ~ nation_known nation).
Proof.
  intros cm su na k s l ex ti oi sl tw ow n p tb m r d Ed B L1 L2 L3 L4 L5 L6 L7 L8 L9 L10 H.
  assert (LL : length d = 129%nat)
    by (subst d; unfold iw_bytes, full_card; rewrite !app_length; cbn [length]; lia).
  assert (Bk : bytes_ok ex /\ byte_ok m /\ bytes_ok p).
  { subst d. unfold iw_bytes in B. rewrite !bytes_ok_app in B.
    destruct B as (_ & _ & Be & _ & _ & _ & _ & _ & ((_ & Bp) & _) & Bm).
    split; [exact Be|]. split; [|exact Bp]. now apply bytes_ok_cons in Bm. }
  destruct Bk as (Be & Bm & Bp).
  pose proof (card_iw_implements cm d B LL) as Q. rewrite H in Q. destruct Q as [A W].
  rewrite fseq_acc in A. rewrite fseq_w in W.
  assert (S1 : sub d 0 36 = su /\ sub d 36 36 = na /\ sub d 72 18 = full_card k s l /\ sub d 90 4 = ex /\
               sub d 109 19 = ([n] ++ p) ++ tb /\ sub d 128 1 = [m]).
  { subst d. unfold iw_bytes.
    assert (Lf : length (full_card k s l) = 18%nat) by now apply full_card_len.
    assert (Lp : length (([n] ++ p) ++ tb) = 19%nat) by (rewrite !app_length; cbn [length]; lia).
    set (f := full_card k s l) in *. clearbody f. set (pv := ([n] ++ p) ++ tb) in *. clearbody pv.
    repeat rewrite <- app_assoc. repeat split; cutg. }
  destruct S1 as (S1 & S2 & S3 & S4 & S5 & S6).
  assert (X : append_card_iw r = Ok d <-> known_text su /\ known_text na /\ no_indexes k l /\ decimal_date ex /\
     nation_known n /\ known_text p /\ (m = 0 \/ m = 1)).
  { rewrite W, (w_at_exact iw_fields d iw_fields_good B) by (exact LL || exact A).
    unfold iw_fields. cbn [exact_at f_id f_enum f_if f_len f_w Nat.add].
    change (f_len (fseq holder_fields)) with 72%nat. change (f_len f_fcn) with 18%nat.
    change (f_len f_date) with 4%nat. change (f_len (fseq previous_fields)) with 19%nat.
    change (f_len f_flag) with 1%nat. cbn [Nat.add].
    assert (T1 : f_w (fseq holder_fields) (sub d 0 72) = Ok (sub d 0 72) <-> known_text su /\ known_text na).
    { rewrite fseq_w, (w_at_exact holder_fields (sub d 0 72)); try reflexivity;
        try (unfold holder_fields; goods); try (now apply bytes_ok_sub); try (rewrite sub_length by lia; reflexivity).
      unfold holder_fields. cbn [exact_at f_string f_fun f_len Nat.add].
      change (f_fun 36 w_string) with (f_string 36).
      rewrite !exact_string by (try (now apply bytes_ok_sub); rewrite ?sub_length by lia; lia).
      rewrite !nth_sub by lia. cbn [Nat.add]. unfold known_text.
      rewrite <- S1, <- S2 at 1. rewrite !nth_sub by lia. cbn [Nat.add]. tauto. }
    assert (T2 : f_w f_fcn (sub d 72 18) = Ok (sub d 72 18) <-> no_indexes k l).
    { rewrite S3. cbn [f_fcn f_w]. unfold w_fcn, full_card, no_indexes. cbn [List.app nth].
      rewrite <- last_two by exact L3. destruct (Z.eqb_spec k 1) as [K|K].
      - cbn [firstn List.app]. split.
        + intros E _. apply Ok_inj in E. injection E as E. exact E.
        + intros E. now rewrite E.
      - split; [intros _ C; contradiction|reflexivity]. }
    assert (T3 : f_w f_date (sub d 90 4) = Ok (sub d 90 4) <-> decimal_date ex).
    { rewrite S4. cbn [f_date f_fun f_w]. rewrite <- w_date_exact by (exact Be || exact L4).
      split; [apply Ok_inj|now intros ->]. }
    assert (T4 : f_w (fseq previous_fields) (sub d 109 19) = Ok (sub d 109 19) <-> nation_known n /\ known_text p).
    { rewrite fseq_w, (w_at_exact previous_fields (sub d 109 19)); try reflexivity;
        try (unfold previous_fields; goods); try (now apply bytes_ok_sub); try (rewrite sub_length by lia; reflexivity).
      unfold previous_fields. cbn [exact_at f_id f_len f_w Nat.add].
      change (f_len f_vreg) with 15%nat.
      rewrite exact_vreg by (try (now apply bytes_ok_sub); rewrite ?sub_length by lia; lia).
      rewrite S5. unfold known_text. destruct p as [|p0 p]; [discriminate L9|]. cbn. tauto. }
    assert (T5 : f_w f_flag (sub d 128 1) = Ok (sub d 128 1) <-> m = 0 \/ m = 1).
    { rewrite S6. cbn [f_flag f_fun f_w]. unfold w_flag. cbn [nth].
      destruct (Z.eqb_spec m 0) as [->|N]; split; auto.
      - intros E. apply Ok_inj in E. injection E as E. auto.
      - intros [E|E]; [contradiction|]. now rewrite E. }
    rewrite T1, T2, T3, T4, T5. tauto. }
  split; [exact X|].
  assert (K : if nation_knownb n then exists d', w_at iw_fields d 0 = Ok d' else w_at iw_fields d 0 = fail).
  { unfold iw_fields. cbn [w_at f_id f_enum f_if f_len f_w Nat.add bind].
    change (f_len (fseq holder_fields)) with 72%nat. change (f_len f_fcn) with 18%nat.
    change (f_len f_date) with 4%nat. change (f_len (fseq previous_fields)) with 19%nat.
    change (f_len f_flag) with 1%nat. cbn [Nat.add].
    rewrite !fseq_w. unfold holder_fields, previous_fields.
    cbn [w_at f_id f_string f_fun f_fcn f_date f_flag f_len f_w Nat.add bind].
    change (f_len f_vreg) with 15%nat. unfold f_vreg. rewrite fseq_w.
    cbn [w_at f_nation f_string f_fun f_len f_w Nat.add bind].
    rewrite S5. cbn [sub skipn firstn List.app nth].
    destruct (nation_knownb n); cbn [bind]; [eexists|]; reflexivity. }
  rewrite W, <- nation_knownb_iff. destruct (nation_knownb n).
  - destruct K as [d' K]. rewrite K. split; [right|split; [discriminate|congruence]].
    destruct (w_at_good iw_fields d iw_fields_good B) as [_ G]; [rewrite LL; apply Nat.le_refl|exact A|].
    destruct (G d' K) as (L' & B' & A' & W').
    pose proof (card_iw_implements cm d' B' L') as Q. rewrite fseq_acc, fseq_w, A', W' in Q.
    destruct (unmarshal_card_iw cm d') as [r'|e|] eqn:U; [|discriminate Q|contradiction].
    exists d', r'. destruct Q as [_ Q]. split; [reflexivity|]. split; [exact L'|]. auto.
  - rewrite K. split; [now left|]. split; [discriminate|reflexivity].
Qed.

(** A record as a vehicle unit stores it: driver card inserted, no previous vehicle
    trouble, everything readable.  Only the indexes of the card number are lost. *)
Definition sample_iw : bytes :=
  iw_bytes (1 :: repeat 65 35) (1 :: repeat 66 35) 1 13 (repeat 48 16) [0x20; 0x27; 0x05; 0x31]
    [95; 0; 0; 1] [0; 1; 0] 0 [95; 0; 16; 1] [0; 1; 9] 13 (1 :: repeat 67 13) [94; 0; 0; 1] 0.

Theorem C80_card_iw_refuted :
  exists r d', unmarshal_card_iw (fun _ b => b) sample_iw = Ok r /\ append_card_iw r = Ok d' /\
    d' <> sample_iw /\ firstn 88 d' = firstn 88 sample_iw /\ skipn 90 d' = skipn 90 sample_iw.
Proof.
  do 2 eexists. split; [vm_compute; reflexivity|]. split; [vm_compute; reflexivity|].
  split; [intros E; vm_compute in E; discriminate E|]. split; vm_compute; reflexivity.
Qed.

(** With a workshop card the record survives. *)
Example C80_card_iw_applies :
  let d := iw_bytes (1 :: repeat 65 35) (1 :: repeat 66 35) 2 13 (repeat 48 16) [0x20; 0x27; 0x05; 0x31]
    [95; 0; 0; 1] [0; 1; 0] 0 [95; 0; 16; 1] [0; 1; 9] 13 (1 :: repeat 67 13) [94; 0; 0; 1] 0 in
  exists r, unmarshal_card_iw (fun _ b => b) d = Ok r /\ append_card_iw r = Ok d.
Proof. cbv zeta. eexists. split; [vm_compute; reflexivity|]. vm_compute. reflexivity. Qed.
