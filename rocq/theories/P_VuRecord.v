(** What reading and writing back does to the records of vehicle unit transfers. *)

From Verif Require Import Base Enums Chunks DDScalar Utf8 DDString DDRecord RawTypes Vu
  P_Scalar Props_Scalar P_Utf8 P_String Field P_Basic P_Record.

(** ** Painting a canvas from left to right *)

Lemma paint_next (p d v : bytes) i j : length p = i -> (i + length v = j)%nat -> (j <= length d)%nat ->
  copy_into (p ++ skipn i d) i j v = (p ++ v) ++ skipn j d.
Proof.
  intros Lp Lv Ld.
  rewrite copy_into_eq by (rewrite ?app_length, ?skipn_length; lia).
  rewrite firstn_app_exact by exact Lp. rewrite <- app_assoc. do 2 f_equal.
  rewrite skipn_app, skipn_all2, Lp by lia. cbn [app]. rewrite skipn_skipn. f_equal. lia.
Qed.

Lemma paint_first (d v : bytes) j : length v = j -> (j <= length d)%nat ->
  copy_into d 0 j v = v ++ skipn j d.
Proof. intros Lv Ld. apply (paint_next [] d v 0 j); [reflexivity|exact Lv|exact Ld]. Qed.

Lemma paint_byte (p d : bytes) i b : length p = i -> (i < length d)%nat ->
  set_byte (p ++ skipn i d) i b = (p ++ [b]) ++ skipn (i + 1) d.
Proof. intros Lp Ld. unfold set_byte. apply paint_next; cbn [length]; lia. Qed.

(** ** Card numbers *)

(** The driver card's replacement and renewal index (bytes 16 and 17) are written as
    zeros. *)
Definition w_fcn (d : bytes) : bytes := if nth 0 d 0 =? 1 then firstn 16 d ++ [0; 0] else d.
Definition acc_fcn (d : bytes) : bool := existsb (Z.eqb (nth 0 d 0)) [1; 2; 4].
Definition f_fcn : field := F 18 acc_fcn (fun d => Ok (w_fcn d)).

Lemma w_fcn_length d : length d = 18%nat -> length (w_fcn d) = 18%nat.
Proof.
  intros L. unfold w_fcn. destruct (_ =? _); [|exact L].
  rewrite app_length, firstn_length, L. reflexivity.
Qed.

Lemma w_fcn_head d : length d = 18%nat -> nth 0 (w_fcn d) 0 = nth 0 d 0.
Proof.
  intros L. unfold w_fcn. destruct (_ =? _); [|reflexivity]. destruct d; [discriminate L|reflexivity].
Qed.

Lemma good_fcn : good f_fcn.
Proof.
  intros d H L A. cbn [f_fcn f_len f_acc f_w] in *. split; [discriminate|].
  intros d' E. apply Ok_inj in E. subst d'. split; [now apply w_fcn_length|].
  split.
  { unfold w_fcn. destruct (_ =? _); [|exact H]. apply bytes_ok_app. split; [now apply bytes_ok_firstn|].
    repeat constructor; lia. }
  split; [unfold acc_fcn in *; now rewrite w_fcn_head|].
  f_equal. unfold w_fcn at 1. rewrite w_fcn_head by exact L. unfold w_fcn.
  destruct (_ =? _); [|reflexivity]. f_equal. rewrite firstn_app_exact; [reflexivity|].
  rewrite firstn_length, L. reflexivity.
Qed.

Lemma equipment_cards b : byte_ok b ->
  match unmarshal_enum equipment_type_table b with
  | Ok t => (t = EQ_DRIVER_CARD <-> b = 1) /\ (t = EQ_WORKSHOP_CARD <-> b = 2) /\
            (t = EQ_COMPANY_CARD <-> b = 4) /\ marshal_enum equipment_type_table t = Ok b
  | Err _ => b <> 1 /\ b <> 2 /\ b <> 4
  | Panic => False
  end.
Proof.
  intros B.
  destruct (unmarshal_enum equipment_type_table b) as [t|e|] eqn:E.
  - pose proof (marshal_unmarshal_enum equipment_type_table _ _ eq_refl E) as M.
    apply unmarshal_enum_iff in E; [|reflexivity]. unfold EQ_DRIVER_CARD, EQ_WORKSHOP_CARD, EQ_COMPANY_CARD.
    split; [|split; [|split; [|exact M]]]; split; intros ->;
      unfold equipment_type_table in E; simpl in E;
      repeat (destruct E as [E|E]; [try discriminate E; injection E; intros; lia|]); contradiction.
  - repeat split; intros ->; discriminate E.
  - now apply unmarshal_enum_no_panic in E.
Qed.

Lemma sub_split (d : bytes) i k n m j : k = (n + m)%nat -> j = (i + n)%nat ->
  sub d i k = sub d i n ++ sub d j m.
Proof. intros -> ->. symmetry. now apply sub_join. Qed.

Lemma fcn_implements :
  implements unmarshal_full_card_number (fun n => append_full_card_number (Some n)) f_fcn.
Proof.
  intros d H L. cbn [f_fcn f_len f_acc f_w] in *. unfold unmarshal_full_card_number.
  rewrite eq_guard by exact L. cbv zeta.
  pose proof (nth_byte_ok d 0 H ltac:(lia)) as B0. pose proof (nth_byte_ok d 1 H ltac:(lia)) as B1.
  pose proof (equipment_cards _ B0) as Q. unfold acc_fcn. cbn [existsb].
  destruct (unmarshal_enum equipment_type_table (nth 0 d 0)) as [t|e|]; cbn [bind];
    [|destruct Q as (? & ? & ?); lia|contradiction].
  destruct Q as (Q1 & Q2 & Q3 & M).
  assert (U : u8 (nth 1 d 0) = nth 1 d 0) by (apply Z.mod_small; exact B1).
  assert (S0 : d = [nth 0 d 0] ++ [nth 1 d 0] ++ sub d 2 16).
  { rewrite <- (sub_1 d 0), <- (sub_1 d 1) by lia.
    rewrite <- (sub_split d 1 17 1 16 2), <- (sub_split d 0 18 1 17 1) by reflexivity.
    symmetry. now apply sub_whole. }
  destruct (Z.eqb_spec t EQ_DRIVER_CARD) as [T|T].
  - unfold unmarshal_driver_id. rewrite sub_sub by lia. cbn [Nat.add].
    rewrite eq_guard by (apply sub_length; lia). rewrite sub_sub by lia. cbn [Nat.add].
    use_field (ia5_implements 14 ltac:(lia)) d 2%nat 14%nat; [|discriminate].
    split; [replace (nth 0 d 0 =? 1) with true by (symmetry; apply Z.eqb_eq; tauto); reflexivity|].
    unfold append_full_card_number. cbn [fcn_type fcn_state fcn_driver fcn_owner]. rewrite M. cbn [bind].
    rewrite T, Z.eqb_refl. unfold append_driver_id. cbn [di_number]. rewrite W. cbn [f_id f_w bind].
    rewrite U. unfold w_fcn. replace (nth 0 d 0 =? 1) with true by (symmetry; apply Z.eqb_eq; tauto).
    f_equal. change (firstn 16 d) with (sub d 0 16).
    rewrite (sub_split d 0 16 1 15 1), (sub_split d 1 15 1 14 2) by reflexivity.
    rewrite !sub_1 by lia. reflexivity.
  - destruct (Z.eqb_spec t EQ_WORKSHOP_CARD) as [T2|T2]; [|destruct (Z.eqb_spec t EQ_COMPANY_CARD) as [T3|T3]];
      cbn [orb].
    3:{ unfold fail. lia. }
    all: unfold unmarshal_owner_id; rewrite eq_guard by (apply sub_length; lia);
      rewrite !sub_sub by lia; cbn [Nat.add];
      (use_field (ia5_implements 13 ltac:(lia)) d 2%nat 13%nat; [|discriminate]);
      (use_field (ia5_implements 1 ltac:(lia)) d 15%nat 1%nat; [|discriminate]);
      (use_field (ia5_implements 1 ltac:(lia)) d 16%nat 1%nat; [|discriminate]);
      (use_field (ia5_implements 1 ltac:(lia)) d 17%nat 1%nat; [|discriminate]);
      (split; [lia|]);
      unfold append_full_card_number; cbn [fcn_type fcn_state fcn_driver fcn_owner]; rewrite M; cbn [bind];
      destruct (Z.eqb_spec t EQ_DRIVER_CARD); [contradiction|];
      first [rewrite T2|rewrite T3]; cbn [orb Z.eqb EQ_WORKSHOP_CARD EQ_COMPANY_CARD Pos.eqb];
      unfold append_owner_id; cbn [oi_number oi_consecutive oi_replacement oi_renewal];
      rewrite W, W0, W1, W2; cbn [f_id f_w bind];
      unfold w_fcn; (replace (nth 0 d 0 =? 1) with false by lia);
      rewrite U; f_equal; rewrite S0 at 7;
      rewrite (sub_split d 2 16 13 3 15), (sub_split d 15 3 1 2 16), (sub_split d 16 2 1 1 17) by reflexivity;
      reflexivity.
Qed.

(** The same followed by a generation. *)
Definition number_gen_fields := [f_fcn; f_enum generation_table].

Lemma number_gen_implements :
  implements unmarshal_card_number_gen (fun n => append_card_number_gen (Some n))
    (fseq number_gen_fields).
Proof.
  intros d H L. change (length d = 19%nat) in L. unfold unmarshal_card_number_gen.
  rewrite long_guard by lia. rewrite L. cbn [Nat.sub].
  rewrite fseq_acc, fseq_w. unfold number_gen_fields.
  cbn [acc_at w_at f_enum f_if f_len f_acc f_w Nat.add]. change (f_len f_fcn) with 18%nat. cbn [Nat.add].
  rewrite nth_sub by lia. cbn [Nat.add]. change (firstn 18 d) with (sub d 0 18).
  destruct (unmarshal_enum generation_table (nth 18 d 0)) as [g|e|] eqn:G; cbn [bind].
  - use_field fcn_implements d 0%nat 18%nat.
    + rewrite A. split; [reflexivity|].
      unfold append_card_number_gen. cbn [cng_number cng_generation]. rewrite W.
      rewrite (marshal_unmarshal_enum generation_table _ _ eq_refl G). cbn [f_fcn f_w bind is_ok].
      rewrite app_nil_r, sub_1 by lia. reflexivity.
    + rewrite Q. reflexivity.
  - cbn [is_ok]. rewrite andb_false_r. reflexivity.
  - now apply unmarshal_enum_no_panic in G.
Qed.

(** ** The vehicle used before *)

Definition previous_fields := [f_vreg; f_id 4].

Lemma previous_implements cm :
  implements (unmarshal_previous_vehicle cm) (fun p => append_previous_vehicle (Some p))
    (fseq previous_fields).
Proof.
  intros d H L. change (length d = 19%nat) in L. unfold unmarshal_previous_vehicle.
  rewrite eq_guard by exact L. rewrite fseq_acc, fseq_w. unfold previous_fields.
  cbn [acc_at w_at f_id f_len f_acc f_w Nat.add bind]. change (f_len f_vreg) with 15%nat.
  cbn [Nat.add]. rewrite vreg_acc. cbn [andb].
  use_field (vreg_implements cm) d 0%nat 15%nat; [|discriminate].
  use_field time_implements d 15%nat 4%nat; [|discriminate].
  split; [reflexivity|]. unfold append_previous_vehicle. cbn [odflt pv_raw pv_reg pv_withdrawal].
  rewrite canvas_ok by (auto; lia). cbn [bind]. rewrite W, W0. cbn [f_id f_w].
  destruct (f_w f_vreg (sub d 0 15)) as [v|e|] eqn:E; cbn [bind]; auto.
  apply f_vreg_len in E; [|apply sub_length; lia]. f_equal.
  rewrite (paint_first d v 15) by lia.
  rewrite (paint_next v d _ 15 19) by (rewrite ?sub_length by lia; lia).
  rewrite (skipn_all2 d) by lia. rewrite !app_nil_r. reflexivity.
Qed.

Definition previous_g2_fields := [f_vreg; f_id 4; f_enum generation_table].

Lemma previous_g2_implements cm :
  implements (unmarshal_previous_vehicle_g2 cm) (fun p => append_previous_vehicle_g2 (Some p))
    (fseq previous_g2_fields).
Proof.
  intros d H L. change (length d = 20%nat) in L. unfold unmarshal_previous_vehicle_g2.
  rewrite eq_guard by exact L. rewrite fseq_acc, fseq_w. unfold previous_g2_fields.
  cbn [acc_at w_at f_id f_enum f_if f_len f_acc f_w Nat.add bind]. change (f_len f_vreg) with 15%nat.
  cbn [Nat.add]. rewrite vreg_acc. cbn [andb]. rewrite nth_sub by lia. cbn [Nat.add].
  use_field (vreg_implements cm) d 0%nat 15%nat; [|discriminate].
  use_field time_implements d 15%nat 4%nat; [|discriminate].
  destruct (unmarshal_enum generation_table (nth 19 d 0)) as [g|e|] eqn:G; cbn [bind is_ok andb].
  - split; [reflexivity|]. unfold append_previous_vehicle_g2.
    cbn [odflt pv2_raw pv2_reg pv2_withdrawal pv2_generation].
    rewrite canvas_ok by (auto; lia). cbn [bind]. rewrite W, W0. cbn [f_id f_w].
    rewrite (marshal_unmarshal_enum generation_table _ _ eq_refl G).
    destruct (f_w f_vreg (sub d 0 15)) as [v|e|] eqn:E; cbn [bind]; auto.
    apply f_vreg_len in E; [|apply sub_length; lia]. f_equal.
    rewrite (paint_first d v 15) by lia.
    rewrite (paint_next v d _ 15 19) by (rewrite ?sub_length by lia; lia).
    rewrite (paint_byte _ d 19) by (rewrite ?app_length, ?sub_length by lia; lia).
    rewrite (skipn_all2 d) by lia. rewrite !app_nil_r, <- app_assoc, <- (sub_1 d 19) by lia. reflexivity.
  - reflexivity.
  - now apply unmarshal_enum_no_panic in G.
Qed.

(** ** Card insertions and withdrawals *)

Definition holder_fields := [f_string 36; f_string 36].

Lemma holder_implements cm :
  implements (unmarshal_holder_name cm) (fun h => append_holder_name (Some h)) (fseq holder_fields).
Proof.
  intros d H L. change (length d = 72%nat) in L. unfold unmarshal_holder_name.
  rewrite eq_guard by exact L. rewrite fseq_acc, fseq_w. unfold holder_fields.
  cbn [acc_at w_at f_string f_fun f_len f_acc f_w Nat.add andb].
  use_field (string_implements cm 36 ltac:(lia)) d 0%nat 36%nat; [|discriminate].
  use_field (string_implements cm 36 ltac:(lia)) d 36%nat 36%nat; [|discriminate].
  split; [reflexivity|]. unfold append_holder_name. cbn [hn_surname hn_first_names].
  rewrite W, W0. cbn [f_string f_fun f_w bind]. now rewrite app_nil_r.
Qed.

(** A flag: any byte but zero is written as one. *)
Definition w_flag (d : bytes) : bytes := [if nth 0 d 0 =? 0 then 0 else 1].
Definition f_flag : field := f_fun 1 w_flag.

Lemma good_flag : good f_flag.
Proof.
  apply good_fun. intros d H L. unfold w_flag. destruct (nth 0 d 0 =? 0); cbn; repeat split;
    repeat constructor; lia.
Qed.

Definition iw_fields :=
  [fseq holder_fields; f_fcn; f_date; f_id 4; f_id 3; f_enum card_slot_number_table; f_id 4; f_id 3;
   fseq previous_fields; f_flag].

Lemma holder_good : good (fseq holder_fields).
Proof. apply good_seq. unfold holder_fields. goods. Qed.

Lemma previous_good : good (fseq previous_fields).
Proof. apply good_seq. unfold previous_fields. goods. Qed.

Lemma iw_fields_good : Forall good iw_fields.
Proof.
  unfold iw_fields.
  repeat (apply Forall_cons; [first [apply holder_good | apply good_fcn | apply good_date | apply good_id
    | apply good_if | apply previous_good | apply good_flag]|]). constructor.
Qed.

Lemma w_at_len fs d v : Forall good fs -> bytes_ok d -> length d = flen fs -> acc_at fs d 0 = true ->
  w_at fs d 0 = Ok v -> length v = flen fs.
Proof.
  intros G B L A E. destruct (w_at_good fs d G B) as [_ Q]; auto; [lia|]. now destruct (Q v E) as [? _].
Qed.

Lemma holder_len d v : bytes_ok d -> length d = 72%nat -> f_w (fseq holder_fields) d = Ok v -> length v = 72%nat.
Proof.
  intros B L E. destruct (holder_good d B L eq_refl) as [_ Q]. now destruct (Q v E) as [? _].
Qed.

Lemma previous_len d v : bytes_ok d -> length d = 19%nat -> f_w (fseq previous_fields) d = Ok v -> length v = 19%nat.
Proof.
  intros B L E. destruct (previous_good d B L) as [_ Q].
  { rewrite fseq_acc. unfold previous_fields. cbn [acc_at f_id f_acc]. now rewrite vreg_acc. }
  now destruct (Q v E) as [? _].
Qed.

Lemma odometer_u32 d i : bytes_ok d -> (i + 3 <= length d)%nat -> u32 (be (sub d i 3)) = be (sub d i 3).
Proof.
  intros B L. pose proof (be_range (sub d i 3) ltac:(now apply bytes_ok_sub)) as R.
  rewrite sub_length in R by exact L. change (256 ^ Z.of_nat 3) with 16777216 in R.
  apply Z.mod_small. lia.
Qed.

Lemma card_iw_implements cm : implements (unmarshal_card_iw cm) append_card_iw (fseq iw_fields).
Proof.
  intros d H L. change (length d = 129%nat) in L. unfold unmarshal_card_iw.
  rewrite eq_guard by exact L. rewrite fseq_acc, fseq_w. unfold iw_fields.
  cbn [acc_at w_at f_id f_enum f_if f_len f_acc f_w Nat.add bind].
  change (f_len (fseq holder_fields)) with 72%nat. change (f_len f_fcn) with 18%nat.
  change (f_len f_date) with 4%nat. change (f_len (fseq previous_fields)) with 19%nat.
  change (f_len f_flag) with 1%nat. cbn [Nat.add]. rewrite !nth_sub by lia. cbn [Nat.add].
  use_field (holder_implements cm) d 0%nat 72%nat; [|now rewrite Q].
  use_field fcn_implements d 72%nat 18%nat; [|now rewrite Q, andb_false_r].
  use_field date_implements d 90%nat 4%nat; [|discriminate].
  use_field time_implements d 94%nat 4%nat; [|discriminate].
  unfold unmarshal_odometer at 1. rewrite eq_guard by (apply sub_length; lia). cbn [bind].
  rewrite A, A0, A1. cbn [andb].
  destruct (unmarshal_enum card_slot_number_table (nth 101 d 0)) as [g|e|] eqn:G; cbn [bind is_ok andb];
    [|reflexivity|now apply unmarshal_enum_no_panic in G].
  use_field time_implements d 102%nat 4%nat; [|discriminate].
  unfold unmarshal_odometer. rewrite eq_guard by (apply sub_length; lia). cbn [bind].
  use_field (previous_implements cm) d 109%nat 19%nat; [|now rewrite Q].
  rewrite A4. split; [reflexivity|].
  unfold append_card_iw. cbn [iw_raw iw_holder iw_card iw_expiry iw_insertion iw_odo_insertion iw_slot
    iw_withdrawal iw_odo_withdrawal iw_previous iw_manual].
  rewrite canvas_ok by (auto; lia). cbn [bind]. rewrite W, W0, W1, W2, W3, W4.
  cbn [f_id f_fcn f_date f_fun f_flag f_w].
  destruct (f_w (fseq holder_fields) (sub d 0 72)) as [h|e|] eqn:E1; cbn [bind]; auto.
  apply holder_len in E1; auto using bytes_ok_sub; [|apply sub_length; lia].
  assert (L2 : length (w_fcn (sub d 72 18)) = 18%nat) by (apply w_fcn_length, sub_length; lia).
  assert (L3 : length (w_date (sub d 90 4)) = 4%nat).
  { destruct (good_date (sub d 90 4)) as [_ Q]; auto using bytes_ok_sub.
    { change (f_len f_date) with 4%nat. apply sub_length. lia. }
    now destruct (Q _ eq_refl) as [? _]. }
  rewrite (marshal_unmarshal_or_zero card_slot_number_table (nth 101 d 0) g) by (auto; in_tables).
  rewrite !odometer_u32 by (auto; lia). rewrite !odometer_back by (auto; lia).
  destruct (f_w (fseq previous_fields) (sub d 109 19)) as [v|e|] eqn:E2; cbn [bind]; auto.
  apply previous_len in E2; auto using bytes_ok_sub; [|apply sub_length; lia]. f_equal.
  rewrite (paint_first d h 72) by lia.
  assert (Ls : forall i n, (i + n <= 129)%nat -> length (sub d i n) = n) by (intros; apply sub_length; lia).
  rewrite (paint_next _ d _ 72 90) by (rewrite ?app_length, ?Ls by lia; lia).
  rewrite (paint_next _ d _ 90 94) by (rewrite ?app_length, ?Ls by lia; lia).
  rewrite (paint_next _ d _ 94 98) by (rewrite ?app_length, ?Ls by lia; lia).
  rewrite (paint_next _ d _ 98 101) by (rewrite ?app_length, ?Ls by lia; lia).
  rewrite (paint_byte _ d 101) by (rewrite ?app_length, ?Ls by lia; lia). cbn [Nat.add].
  rewrite (paint_next _ d _ 102 106) by (rewrite ?app_length, ?Ls by lia; cbn [length]; lia).
  rewrite (paint_next _ d _ 106 109) by (rewrite ?app_length, ?Ls by lia; cbn [length]; lia).
  rewrite (paint_next _ d _ 109 128) by (rewrite ?app_length, ?Ls by lia; cbn [length]; lia).
  rewrite (paint_byte _ d 128) by (rewrite ?app_length, ?Ls by lia; cbn [length]; lia).
  rewrite (skipn_all2 d) by lia. rewrite !app_nil_r, <- !app_assoc, <- (sub_1 d 101) by lia.
  unfold w_flag. rewrite nth_sub by lia. cbn [Nat.add].
  destruct (nth 128 d 0 =? 0); reflexivity.
Qed.

(** ** Painting the records of an overview *)

Lemma fcn_written d n : bytes_ok d -> length d = 18%nat -> unmarshal_full_card_number d = Ok n ->
  append_full_card_number (Some n) = Ok (w_fcn d).
Proof.
  intros B L H. pose proof (fcn_implements d B L) as Q. rewrite H in Q. now destruct Q as [_ Q].
Qed.

Lemma time_written d t : bytes_ok d -> length d = 4%nat -> unmarshal_time d = Ok t -> append_time t = Ok d.
Proof.
  intros B L H. pose proof (time_implements d B L) as Q. rewrite H in Q. now destruct Q as [_ Q].
Qed.

Lemma string_written cm d v : (2 <= length d)%nat -> unmarshal_string_value cm d = Ok v ->
  append_string_value (Some v) = Ok (w_string d).
Proof. intros L H. apply (string_write_back cm d _ H). Qed.

Lemma w_string_length d : (1 <= length d)%nat -> length (w_string d) = length d.
Proof. intros L. unfold w_string. cbn [length]. rewrite skipn_length. lia. Qed.

Definition w_lock (b : bytes) : bytes :=
  sub b 0 4 ++ sub b 4 4 ++ w_string (sub b 8 36) ++ w_string (sub b 44 36) ++ w_fcn (sub b 80 18).
Definition w_vu_control (b : bytes) : bytes :=
  sub b 0 1 ++ sub b 1 4 ++ w_fcn (sub b 5 18) ++ sub b 23 4 ++ sub b 27 4.

Lemma w_lock_length b : length b = 98%nat -> length (w_lock b) = 98%nat.
Proof.
  intros L. unfold w_lock. rewrite !app_length, !w_string_length, w_fcn_length, !sub_length; try lia;
    rewrite sub_length; lia.
Qed.

Lemma w_vu_control_length b : length b = 31%nat -> length (w_vu_control b) = 31%nat.
Proof.
  intros L. unfold w_vu_control. rewrite !app_length, w_fcn_length, !sub_length; try lia; rewrite sub_length; lia.
Qed.

Lemma paint_lock_eq cm b l p d o : bytes_ok b -> length b = 98%nat -> unmarshal_lock cm b = Ok l ->
  length p = o -> (o + 98 <= length d)%nat ->
  paint_lock (p ++ skipn o d) o l = Ok ((p ++ w_lock b) ++ skipn (o + 98) d).
Proof.
  intros B L H Lp Ld. unfold unmarshal_lock in H. repeat inv_bind H. apply Ok_inj in H. subst l.
  assert (Ls : forall i n, (i + n <= 98)%nat -> length (sub b i n) = n) by (intros; apply sub_length; lia).
  repeat match goal with E : unmarshal_time ?x = Ok _ |- _ =>
    apply time_written in E; [|now apply bytes_ok_sub|apply Ls; lia] end.
  repeat match goal with E : unmarshal_string_value _ ?x = Ok _ |- _ =>
    apply string_written in E; [|rewrite Ls; lia] end.
  match goal with E : unmarshal_full_card_number _ = Ok _ |- _ =>
    apply fcn_written in E; [|now apply bytes_ok_sub|apply Ls; lia] end.
  unfold paint_lock, paint. cbn [cl_in cl_out cl_name cl_address cl_card].
  repeat match goal with E : _ = Ok _ |- _ => rewrite E; clear E; cbn [bind] end.
  assert (M1 : length (w_string (sub b 8 36)) = 36%nat) by (rewrite w_string_length; rewrite Ls; lia).
  assert (M2 : length (w_string (sub b 44 36)) = 36%nat) by (rewrite w_string_length; rewrite Ls; lia).
  assert (M3 : length (w_fcn (sub b 80 18)) = 18%nat) by (apply w_fcn_length; apply Ls; lia).
  rewrite (paint_next p d _ o (o + 4)) by (rewrite ?Ls; lia).
  rewrite (paint_next _ d _ (o + 4) (o + 4 + 4)) by (rewrite ?app_length, ?Ls; lia).
  replace (o + 4 + 4)%nat with (o + 8)%nat by lia.
  rewrite (paint_next _ d _ (o + 8) (o + 8 + 36)) by (rewrite ?app_length, ?Ls, ?M1; lia).
  replace (o + 8 + 36)%nat with (o + 44)%nat by lia.
  rewrite (paint_next _ d _ (o + 44) (o + 44 + 36)) by (rewrite ?app_length, ?Ls, ?M1, ?M2; lia).
  replace (o + 44 + 36)%nat with (o + 80)%nat by lia.
  rewrite (paint_next _ d _ (o + 80) (o + 80 + 18)) by (rewrite ?app_length, ?Ls, ?M1, ?M2, ?M3; lia).
  unfold w_lock. rewrite <- !app_assoc. do 7 f_equal. f_equal. lia.
Qed.

Lemma paint_control_eq b c p d o : bytes_ok b -> length b = 31%nat -> unmarshal_vu_control b = Ok c ->
  length p = o -> (o + 31 <= length d)%nat ->
  paint_control (p ++ skipn o d) o c = Ok ((p ++ w_vu_control b) ++ skipn (o + 31) d).
Proof.
  intros B L H Lp Ld. unfold unmarshal_vu_control in H. repeat inv_bind H. apply Ok_inj in H. subst c.
  assert (Ls : forall i n, (i + n <= 31)%nat -> length (sub b i n) = n) by (intros; apply sub_length; lia).
  assert (C : append_control_type (Some a) = Ok (sub b 0 1)).
  { rewrite sub_1 in * by lia.
    destruct (control_type_round_trip (nth 0 b 0) (nth_byte_ok b 0 B ltac:(lia))) as (r & U & W).
    assert (a = r) by congruence. now subst r. }
  match goal with E : unmarshal_control_type _ = Ok _ |- _ => clear E end.
  repeat match goal with E : unmarshal_time ?x = Ok _ |- _ =>
    apply time_written in E; [|now apply bytes_ok_sub|apply Ls; lia] end.
  match goal with E : unmarshal_full_card_number _ = Ok _ |- _ =>
    apply fcn_written in E; [|now apply bytes_ok_sub|apply Ls; lia] end.
  unfold paint_control, paint. cbn [vc_type vc_time vc_card vc_begin vc_end].
  repeat match goal with E : _ = Ok _ |- _ => rewrite E; clear E; cbn [bind] end.
  assert (M3 : length (w_fcn (sub b 5 18)) = 18%nat) by (apply w_fcn_length; apply Ls; lia).
  rewrite (paint_next p d _ o (o + 1)) by (rewrite ?Ls; lia).
  rewrite (paint_next _ d _ (o + 1) (o + 1 + 4)) by (rewrite ?app_length, ?Ls; lia).
  replace (o + 1 + 4)%nat with (o + 5)%nat by lia.
  rewrite (paint_next _ d _ (o + 5) (o + 5 + 18)) by (rewrite ?app_length, ?Ls, ?M3; lia).
  replace (o + 5 + 18)%nat with (o + 23)%nat by lia.
  rewrite (paint_next _ d _ (o + 23) (o + 23 + 4)) by (rewrite ?app_length, ?Ls, ?M3; lia).
  replace (o + 23 + 4)%nat with (o + 27)%nat by lia.
  rewrite (paint_next _ d _ (o + 27) (o + 27 + 4)) by (rewrite ?app_length, ?Ls, ?M3; lia).
  unfold w_vu_control. rewrite <- !app_assoc. do 7 f_equal. f_equal. lia.
Qed.

Lemma paint_records_eq {X} (f : bytes -> nat -> X -> res bytes) (P : bytes -> X -> Prop) (w : bytes -> bytes) n :
  (forall b x p d o, P b x -> length p = o -> (o + n <= length d)%nat ->
     f (p ++ skipn o d) o x = Ok ((p ++ w b) ++ skipn (o + n) d)) ->
  forall bs xs, Forall2 P bs xs -> Forall (fun b => length (w b) = n) bs ->
  forall p d o, length p = o -> (o + length bs * n <= length d)%nat ->
  paint_records f (p ++ skipn o d) o n xs = Ok ((p ++ concat (map w bs)) ++ skipn (o + length bs * n) d).
Proof.
  intros Hf bs xs Q. induction Q as [|b x bs xs Hb Q IH]; intros LW p d o Lp Ld.
  - cbn. rewrite app_nil_r, Nat.add_0_r. reflexivity.
  - apply Forall_cons_iff in LW as [L1 LW]. cbn [paint_records length map concat] in *.
    rewrite (Hf b) by (auto; lia). cbn [bind].
    rewrite IH by (auto; try (rewrite app_length; lia); lia).
    rewrite <- !app_assoc. do 4 f_equal. f_equal. lia.
Qed.
