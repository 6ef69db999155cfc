(** C65: edited fields against preserved bytes. *)

From Coq Require Import String.
From Verif Require Import Base Enums DDScalar Chunks Utf8 DDString DDRecord CardRecords.
From Verif Require Import P_Scalar P_Basic P_String Field P_Record P_Records Anonymize P_Anonymize.
Local Open Scope list_scope.

(** ** Files of records *)

Lemma raw_canvas_nonempty_len n raw c : raw_canvas_nonempty n raw = Ok c -> length c = n.
Proof.
  unfold raw_canvas_nonempty, raw_canvas. destruct (_ <? _)%nat.
  - destruct (Nat.eqb_spec (length raw) n); [|discriminate]. intros E. now apply Ok_inj in E as <-.
  - intros E. apply Ok_inj in E as <-. apply zeros_length.
Qed.

Lemma copy_len c i j s n : length c = n -> (j <= n)%nat -> (i <= j)%nat -> length (copy_into c i j s) = n.
Proof. intros <- J I. apply copy_into_length; auto. Qed.

Lemma set_len c i b n : length c = n -> (i < n)%nat -> length (set_byte c i b) = n.
Proof. intros <- I. now apply set_byte_length. Qed.

Lemma append_place_len m out : append_place m = Ok out -> length out = 10%nat.
Proof.
  unfold append_place. intros H. apply bind_ok in H as (c & Ec & H). apply raw_canvas_nonempty_len in Ec.
  apply bind_ok in H as (t & _ & H). apply Ok_inj in H as <-.
  apply copy_len; try lia.
  assert (G : forall c', length c' = 10%nat ->
     length (match pl_region m with [] => c' | b :: _ => set_byte c' 6 b end) = 10%nat).
  { intros c' L. destruct (pl_region m); auto. apply set_len; auto; lia. }
  apply G. repeat (apply set_len; [|lia]). apply copy_len; auto; lia.
Qed.

Lemma append_place_g2_len m out : append_place_g2 m = Ok out -> length out = 21%nat.
Proof.
  unfold append_place_g2. intros H. apply bind_ok in H as (c & Ec & H). apply raw_canvas_nonempty_len in Ec.
  apply bind_ok in H as (t & _ & H). apply bind_ok in H as (g & _ & H). apply Ok_inj in H as <-.
  apply copy_len; try lia. apply copy_len; try lia.
  assert (G : forall c', length c' = 21%nat ->
     length (match pl2_region m with [] => c' | b :: _ => set_byte c' 6 b end) = 21%nat).
  { intros c' L. destruct (pl2_region m); auto. apply set_len; auto; lia. }
  apply G. repeat (apply set_len; [|lia]). apply copy_len; auto; lia.
Qed.

Lemma append_card_vehicle_len m out : append_card_vehicle m = Ok out -> length out = 31%nat.
Proof.
  unfold append_card_vehicle. intros H. apply bind_ok in H as (c & Ec & H). apply raw_canvas_nonempty_len in Ec.
  apply bind_ok in H as (f & _ & H). apply bind_ok in H as (l & _ & H). apply bind_ok in H as (v & _ & H).
  apply bind_ok in H as (b & _ & H). apply Ok_inj in H as <-. repeat (apply copy_len; try lia).
Qed.

Lemma append_card_vehicle_g2_len m out : append_card_vehicle_g2 m = Ok out -> length out = 48%nat.
Proof.
  unfold append_card_vehicle_g2. intros H. apply bind_ok in H as (c & Ec & H). apply raw_canvas_nonempty_len in Ec.
  apply bind_ok in H as (f & _ & H). apply bind_ok in H as (l & _ & H). apply bind_ok in H as (v & _ & H).
  apply bind_ok in H as (b & _ & H). apply Ok_inj in H as <-. repeat (apply copy_len; try lia).
Qed.

Lemma append_spec_cond_len m out : append_spec_cond m = Ok out -> length out = 5%nat.
Proof.
  unfold append_spec_cond. intros H. apply bind_ok in H as (t & Et & H). apply bind_ok in H as (b & _ & H).
  apply Ok_inj in H as <-. rewrite app_length, (append_time_len _ _ Et). reflexivity.
Qed.

(** [bs] are the encodings of the records [rs]. *)
Definition encodings {A} (ap : A -> res bytes) (rs : list A) (bs : list bytes) : Prop :=
  Forall2 (fun r b => ap r = Ok b) rs bs.

Lemma pointer_file_plain {A} (ap : A -> res bytes) size pointer raw rs out :
  (forall a b, ap a = Ok b -> length b = size) ->
  (append_pointer_file ap size pointer raw rs = Ok out <->
   exists bs, encodings ap rs bs /\ out = pointer ++ concat bs).
Proof.
  intros S. unfold append_pointer_file, encodings.
  assert (Ls : forall bs, Forall2 (fun r b => ap r = Ok b) rs bs -> Forall (fun b => length b = size) bs).
  { intros bs H. clear out. induction H; constructor; eauto. }
  destruct (Nat.eqb_spec (length raw) (length pointer + length rs * size)) as [E|E].
  - assert (C : length (copy_into raw 0 (length pointer) pointer) = length raw) by (apply copy_into_length; lia).
    assert (D : firstn (length pointer) (copy_into raw 0 (length pointer) pointer) = pointer).
    { rewrite copy_into_eq by lia. cbn [firstn List.app].
      rewrite firstn_app, firstn_all, Nat.sub_diag, firstn_O. apply app_nil_r. }
    rewrite paint_records_ok by lia. rewrite D. rewrite skipn_all2 by lia. split.
    + intros (bs & F2 & _ & ->). exists bs. now rewrite app_nil_r.
    + intros (bs & F2 & ->). exists bs. rewrite app_nil_r. auto.
  - split.
    + intros H. apply bind_ok in H as (b & Hb & H). apply Ok_inj in H as <-.
      apply concat_res_ok in Hb as (bs & F2 & ->). exists bs. auto.
    + intros (bs & F2 & ->). assert (Hc : concat_res ap rs = Ok (concat bs)) by (apply concat_res_ok; eauto).
      rewrite Hc. reflexivity.
Qed.

(** ** Fields of one record *)

Lemma append_place_fields m d out :
  pl_raw m = d -> length d = 10%nat -> append_place m = Ok out ->
  exists t, append_time (pl_time m) = Ok t /\
    out = t ++ [place_enum_byte entry_type_daily_work_period_table (pl_entry m) (pl_entry_unrecognized m);
                place_enum_byte nation_numeric_table (pl_country m) (pl_country_unrecognized m);
                hd (nth 6 d 0) (pl_region m)] ++ append_odometer (pl_odometer m).
Proof.
  intros R L H. unfold append_place in H. rewrite R, canvas_ok in H by (auto; lia). cbn [bind] in H.
  apply bind_ok in H as (t & Et & H). exists t. split; [exact Et|]. apply append_time_len in Et.
  apply Ok_inj in H as <-.
  destruct (len10 _ L) as (? & ? & ? & ? & ? & ? & ? & ? & ? & ? & ->).
  destruct (len4 _ Et) as (? & ? & ? & ? & ->).
  destruct (len3 _ (odometer_len (pl_odometer m))) as (? & ? & ? & ->).
  destruct (pl_region m) as [|r rest]; reflexivity.
Qed.

Lemma append_place_g2_fields m d out :
  pl2_raw m = d -> length d = 21%nat -> append_place_g2 m = Ok out ->
  exists t g, append_time (pl2_time m) = Ok t /\ append_gnss_place (pl2_gnss m) = Ok g /\
    out = (t ++ [place_enum_byte entry_type_daily_work_period_table (pl2_entry m) (pl2_entry_unrecognized m);
                place_enum_byte nation_numeric_table (pl2_country m) (pl2_country_unrecognized m);
                hd (nth 6 d 0) (pl2_region m)] ++ append_odometer (pl2_odometer m)) ++ g.
Proof.
  intros R L H. unfold append_place_g2 in H. rewrite R, canvas_ok in H by (auto; lia). cbn [bind] in H.
  apply bind_ok in H as (t & Et & H). apply bind_ok in H as (g & Eg & H). exists t, g.
  split; [exact Et|]. split; [exact Eg|]. apply append_time_len in Et. apply append_gnss_len in Eg.
  apply Ok_inj in H as <-.
  rewrite <- (firstn_skipn 10 d). assert (L1 : length (firstn 10 d) = 10%nat) by (rewrite firstn_length; lia).
  assert (L2 : length (skipn 10 d) = 11%nat) by (rewrite skipn_length; lia).
  destruct (len10 _ L1) as (? & ? & ? & ? & ? & ? & ? & ? & ? & ? & ->).
  destruct (len11 _ L2) as (? & ? & ? & ? & ? & ? & ? & ? & ? & ? & ? & ->).
  destruct (len4 _ Et) as (? & ? & ? & ? & ->).
  destruct (len11 _ Eg) as (? & ? & ? & ? & ? & ? & ? & ? & ? & ? & ? & ->).
  destruct (len3 _ (odometer_len (pl2_odometer m))) as (? & ? & ? & ->).
  destruct (pl2_region m) as [|r rest]; reflexivity.
Qed.

Lemma place_enum_known T v u c :
  In T all_enum_tables -> coded_proper T = true -> In (v, Some c) T -> place_enum_byte T v u = c.
Proof.
  intros I C H. unfold place_enum_byte.
  assert (E : unmarshal_enum T c = Ok v) by (apply unmarshal_enum_iff; auto using enum_wf).
  destruct (unmarshal_enum_coded T c v C E) as [_ N].
  destruct (Z.eqb_spec v ENUM_UNRECOGNIZED); [contradiction|]. now apply marshal_unmarshal_or_zero.
Qed.

(** A time a record can carry. *)
Definition writable_time (o : option timestamp) : Prop :=
  match o with
  | None => True
  | Some t => 0 < ts_seconds t < 4294967296 /\ ts_nanos t = 0
  end.

Lemma writable_time_back o t : writable_time o -> append_time o = Ok t -> unmarshal_time t = Ok o.
Proof.
  intros W E. destruct o as [[s n]|]; cbn [writable_time ts_seconds ts_nanos] in W.
  - destruct W as [W ->]. apply Ok_inj in E as <-. now apply time_back.
  - apply Ok_inj in E as <-. reflexivity.
Qed.

(** What an edited place record [m], still carrying the bytes [d] it was parsed
    from, is written as. *)
Definition place_edit_wins : Prop :=
  forall d p m out,
    bytes_ok d -> unmarshal_place d = Ok p -> pl_raw m = d -> append_place m = Ok out ->
    length out = length d /\
    (* unedited fields keep their bytes *)
    (pl_time m = pl_time p -> sub out 0 4 = sub d 0 4) /\
    (pl_entry m = pl_entry p -> pl_entry_unrecognized m = pl_entry_unrecognized p -> nth 4 out 0 = nth 4 d 0) /\
    (pl_country m = pl_country p -> pl_country_unrecognized m = pl_country_unrecognized p ->
       nth 5 out 0 = nth 5 d 0) /\
    (pl_region m = pl_region p -> nth 6 out 0 = nth 6 d 0) /\
    (pl_odometer m = pl_odometer p -> sub out 7 3 = sub d 7 3) /\
    (* edited fields are there *)
    (writable_time (pl_time m) -> unmarshal_time (sub out 0 4) = Ok (pl_time m)) /\
    (forall c, In (pl_entry m, Some c) entry_type_daily_work_period_table -> nth 4 out 0 = c) /\
    (forall c, In (pl_country m, Some c) nation_numeric_table -> nth 5 out 0 = c) /\
    (forall r, pl_region m = [r] -> nth 6 out 0 = r) /\
    (0 <= pl_odometer m < 16777216 -> be (sub out 7 3) = pl_odometer m).

Lemma place_edit_wins_ok : place_edit_wins.
Proof.
  intros d p m out H U R W.
  assert (L : length d = 10%nat).
  { unfold unmarshal_place in U. apply bind_ok in U as (u & G & _). apply guard_ok in G. now apply Nat.eqb_eq. }
  destruct (append_place_fields m d out R L W) as (t & Et & ->).
  pose proof (append_time_len _ _ Et) as Lt. pose proof (odometer_len (pl_odometer m)) as Lo.
  set (e := place_enum_byte entry_type_daily_work_period_table _ _).
  set (c := place_enum_byte nation_numeric_table _ _). set (o := append_odometer (pl_odometer m)) in *.
  set (r := hd (nth 6 d 0) (pl_region m)).
  assert (P : sub (t ++ [e; c; r] ++ o) 0 4 = t /\ nth 4 (t ++ [e; c; r] ++ o) 0 = e /\
    nth 5 (t ++ [e; c; r] ++ o) 0 = c /\ nth 6 (t ++ [e; c; r] ++ o) 0 = r /\
    sub (t ++ [e; c; r] ++ o) 7 3 = o /\ length (t ++ [e; c; r] ++ o) = 10%nat).
  { clearbody e c r o. destruct (len4 _ Lt) as (? & ? & ? & ? & ->). destruct (len3 _ Lo) as (? & ? & ? & ->).
    repeat split. }
  destruct P as (P1 & P2 & P3 & P4 & P5 & P6). rewrite P1, P2, P3, P4, P5, P6.
  unfold unmarshal_place in U. apply bind_ok in U as (u & _ & U). apply bind_ok in U as (tm & Etm & U).
  apply Ok_inj in U as <-.
  cbn [pl_time pl_entry pl_entry_unrecognized pl_country pl_country_unrecognized pl_region pl_odometer].
  assert (TE : In entry_type_daily_work_period_table all_enum_tables) by now repeat (try (left; reflexivity); right).
  assert (TN : In nation_numeric_table all_enum_tables) by now repeat (try (left; reflexivity); right).
  split; [now rewrite L|]. split; [|split; [|split; [|split; [|split; [|split; [|split; [|split; [|split]]]]]]]].
  - intros E. cbn [pl_time] in E. rewrite E in Et.
    pose proof (time_round_trip (sub d 0 4) _ (bytes_ok_sub _ _ _ H) ltac:(rewrite sub_length; lia) Etm) as I.
    rewrite Et in I. now apply Ok_inj in I.
  - intros E1 E2. unfold e. rewrite E1, E2. apply place_enum_back; auto. apply nth_byte_ok; auto; lia.
  - intros E1 E2. unfold c. rewrite E1, E2. apply place_enum_back; auto. apply nth_byte_ok; auto; lia.
  - intros E. unfold r. rewrite E. reflexivity.
  - intros E. unfold o. rewrite E. apply odometer_back; auto; lia.
  - intros Wt. now apply (writable_time_back _ t).
  - intros k K. unfold e. now apply place_enum_known.
  - intros k K. unfold c. now apply place_enum_known.
  - intros k K. unfold r. now rewrite K.
  - intros K. unfold o. now apply odometer_value.
Qed.

Lemma sub_copy_out c i j s k n :
  (i <= j)%nat -> (j <= length c)%nat -> (k + n <= i \/ j <= k)%nat -> (k + n <= length c)%nat ->
  sub (copy_into c i j s) k n = sub c k n.
Proof.
  intros A B C D. pose proof (copy_into_length c i j s A B) as L.
  apply (nth_ext _ _ 0 0); [rewrite !sub_length; lia|].
  intros q Q. rewrite sub_length in Q by lia. rewrite !nth_sub by lia. apply nth_copy_into_out; auto. lia.
Qed.

Lemma sub_copy_in c i j s n :
  (j = i + n)%nat -> (j <= length c)%nat -> length s = n -> sub (copy_into c i j s) i n = s.
Proof.
  intros -> B C. pose proof (copy_into_length c i (i + n) s ltac:(lia) B) as L.
  apply (nth_ext _ _ 0 0); [rewrite !sub_length; lia|].
  intros q Q. rewrite sub_length in Q by lia. rewrite !nth_sub by lia.
  rewrite nth_copy_into_in by lia. f_equal. lia.
Qed.

(** Decimal counters come back as the number written. *)
Lemma bcd_pair_back b v : bcd_length b = 2 -> append_bcd_string (Some b) = Ok v ->
  unmarshal_bcd_string v = Ok b /\ length v = 2%nat.
Proof.
  destruct b as [x n]. cbn [bcd_length]. intros -> W. unfold append_bcd_string in W.
  cbn [bcd_length bcd_value] in W.
  destruct (Z.ltb_spec x 0) as [N|N]; [discriminate|].
  change (2 <=? 0) with false in W. cbv iota in W. change (Z.to_nat 2) with 2%nat in W.
  unfold append_bcd in W. destruct (Z.ltb_spec x 0); [discriminate|].
  destruct (Nat.ltb_spec (2 * 2) (length (itoa x))) as [|Q]; [discriminate|].
  apply Ok_inj in W as <-. destruct (itoa_spec x) as (D & V & _); [lia|].
  set (ds := zeros (2 * 2 - length (itoa x)) ++ itoa x).
  assert (Dd : digits_ok ds).
  { apply Forall_app; split; auto. apply Forall_forall. intros y Hy. apply repeat_spec in Hy. subst; lia. }
  assert (Ld : length ds = 4%nat) by (unfold ds; rewrite app_length, zeros_length; lia).
  destruct (nibbles_pack ds 2 Dd Ld) as (Np & Lp & _).
  assert (Vd : dec_val ds = x) by (unfold ds; now rewrite dec_val_zeros, V).
  pose proof (dec_val_range _ Dd) as R. rewrite Ld, Vd in R. change (10 ^ Z.of_nat 4) with 10000 in R.
  split; [|exact Lp]. unfold unmarshal_bcd_string, decode_bcd. rewrite Lp, Np, Vd.
  cbn [Nat.eqb negb guard bind].
  assert (E : forallb (fun d => d <? 10) ds = true).
  { apply forallb_forall. intros y Hy. unfold digits_ok in Dd. rewrite Forall_forall in Dd.
    specialize (Dd y Hy). lia. }
  rewrite E. destruct (Z.leb_spec x max_int64) as [_|G]; [|unfold max_int64 in G; lia].
  cbn [andb bind]. f_equal. f_equal. unfold s32. rewrite Z.mod_small by lia.
  destruct (Z.ltb_spec x 2147483648); lia.
Qed.

(** What an edited vehicle record [m], still carrying the bytes [d] it was parsed
    from, is written as. *)
Definition vehicle_edit_wins : Prop :=
  forall cm d p m out,
    bytes_ok d -> unmarshal_card_vehicle cm d = Ok p -> cv_raw m = d -> append_card_vehicle m = Ok out ->
    length out = length d /\
    (* unedited fields keep their bytes *)
    (cv_odo_begin m = cv_odo_begin p -> sub out 0 3 = sub d 0 3) /\
    (cv_odo_end m = cv_odo_end p -> sub out 3 3 = sub d 3 3) /\
    (cv_first_use m = cv_first_use p -> sub out 6 4 = sub d 6 4) /\
    (cv_last_use m = cv_last_use p -> sub out 10 4 = sub d 10 4) /\
    (cv_reg m = cv_reg p -> page_known (nth 15 d 0) -> sub out 14 15 = sub d 14 15) /\
    (cv_counter m = cv_counter p -> sub out 29 2 = sub d 29 2) /\
    (* edited fields are there *)
    (0 <= cv_odo_begin m < 16777216 -> be (sub out 0 3) = cv_odo_begin m) /\
    (0 <= cv_odo_end m < 16777216 -> be (sub out 3 3) = cv_odo_end m) /\
    (writable_time (cv_first_use m) -> unmarshal_time (sub out 6 4) = Ok (cv_first_use m)) /\
    (writable_time (cv_last_use m) -> unmarshal_time (sub out 10 4) = Ok (cv_last_use m)) /\
    (forall v c, cv_reg m = Some v -> In (vr_nation v, Some c) nation_numeric_table -> nth 14 out 0 = c) /\
    (forall v s, cv_reg m = Some v -> vr_number v = Some s -> sv_raw s = None -> sv_length s = Some 13 ->
       sub out 15 14 = code_page_of_encoding (sv_encoding s) ::
         pad_spaces 13 (encode_with_code_page (code_page_of_encoding (sv_encoding s)) (sv_value s))) /\
    (forall b, cv_counter m = Some b -> bcd_length b = 2 -> unmarshal_bcd_string (sub out 29 2) = Ok b).

Lemma append_card_vehicle_parts m d out :
  cv_raw m = d -> length d = 31%nat -> append_card_vehicle m = Ok out ->
  exists f l v b,
    append_time (cv_first_use m) = Ok f /\ append_time (cv_last_use m) = Ok l /\
    append_vreg (cv_reg m) = Ok v /\ append_bcd_string (cv_counter m) = Ok b /\
    length out = 31%nat /\
    sub out 0 3 = append_odometer (cv_odo_begin m) /\ sub out 3 3 = append_odometer (cv_odo_end m) /\
    sub out 6 4 = f /\ sub out 10 4 = l /\
    sub out 14 15 = sub (copy_into d 14 29 v) 14 15 /\ sub out 29 2 = sub (copy_into d 29 31 b) 29 2.
Proof.
  intros R L H. unfold append_card_vehicle in H. rewrite R, canvas_ok in H by (auto; lia). cbn [bind] in H.
  apply bind_ok in H as (f & Ef & H). apply bind_ok in H as (l & El & H).
  apply bind_ok in H as (v & Ev & H). apply bind_ok in H as (b & Eb & H). apply Ok_inj in H as <-.
  exists f, l, v, b. do 4 (split; [assumption|]).
  apply append_time_len in Ef. apply append_time_len in El.
  pose proof (odometer_len (cv_odo_begin m)) as L1. pose proof (odometer_len (cv_odo_end m)) as L2.
  set (c1 := copy_into d 0 3 _). assert (K1 : length c1 = 31%nat) by (unfold c1; rewrite copy_into_length; lia).
  set (c2 := copy_into c1 3 6 _). assert (K2 : length c2 = 31%nat) by (unfold c2; rewrite copy_into_length; lia).
  set (c3 := copy_into c2 6 10 _). assert (K3 : length c3 = 31%nat) by (unfold c3; rewrite copy_into_length; lia).
  set (c4 := copy_into c3 10 14 _). assert (K4 : length c4 = 31%nat) by (unfold c4; rewrite copy_into_length; lia).
  set (c5 := copy_into c4 14 29 _). assert (K5 : length c5 = 31%nat) by (unfold c5; rewrite copy_into_length; lia).
  assert (D4 : skipn 14 c4 = skipn 14 d).
  { assert (G : forall c, length c = 31%nat -> skipn 14 c = sub c 14 17)
      by (intros c Lc; unfold sub; rewrite firstn_all2; auto; rewrite skipn_length; lia).
    rewrite !G by auto. unfold c4. rewrite sub_copy_out by lia. unfold c3. rewrite sub_copy_out by lia.
    unfold c2. rewrite sub_copy_out by lia. unfold c1. now rewrite sub_copy_out by lia. }
  split; [rewrite copy_into_length; lia|].
  split; [|split; [|split; [|split; [|split]]]].
  - rewrite !sub_copy_out by lia. unfold c5. rewrite sub_copy_out by lia. unfold c4. rewrite sub_copy_out by lia.
    unfold c3. rewrite sub_copy_out by lia. unfold c2. rewrite sub_copy_out by lia. apply sub_copy_in; lia.
  - rewrite !sub_copy_out by lia. unfold c5. rewrite sub_copy_out by lia. unfold c4. rewrite sub_copy_out by lia.
    unfold c3. rewrite sub_copy_out by lia. apply sub_copy_in; lia.
  - rewrite !sub_copy_out by lia. unfold c5. rewrite sub_copy_out by lia. unfold c4. rewrite sub_copy_out by lia.
    apply sub_copy_in; lia.
  - rewrite !sub_copy_out by lia. unfold c5. rewrite sub_copy_out by lia. apply sub_copy_in; lia.
  - rewrite !sub_copy_out by lia. unfold c5, copy_into, sub.
    assert (E : forall n, skipn (14 + n) c4 = skipn (14 + n) d).
    { intros n. rewrite <- (skipn_skipn n 14 c4), <- (skipn_skipn n 14 d). now rewrite D4. }
    rewrite !E. rewrite !skipn_app, !firstn_length.
    replace (Nat.min 14 (length c4)) with 14%nat by lia. replace (Nat.min 14 (length d)) with 14%nat by lia.
    rewrite (skipn_all2 (firstn 14 c4)), (skipn_all2 (firstn 14 d)) by (rewrite firstn_length; lia). reflexivity.
  - unfold copy_into, sub.
    assert (E : forall n, skipn (29 + n) c5 = skipn (29 + n) d).
    { intros n. assert (E0 : skipn 29 c5 = skipn 29 d).
      { transitivity (sub c5 29 2); [unfold sub; rewrite firstn_all2; auto; rewrite skipn_length; lia|].
        unfold c5. rewrite sub_copy_out by lia. unfold sub. rewrite firstn_all2 by (rewrite skipn_length; lia).
        change 29%nat with (14 + 15)%nat. rewrite <- !(skipn_skipn 15 14). now rewrite D4. }
      rewrite <- (skipn_skipn n 29 c5), <- (skipn_skipn n 29 d). now rewrite E0. }
    rewrite !E. rewrite !skipn_app, !firstn_length.
    replace (Nat.min 29 (length c5)) with 29%nat by lia. replace (Nat.min 29 (length d)) with 29%nat by lia.
    rewrite (skipn_all2 (firstn 29 c5)), (skipn_all2 (firstn 29 d)) by (rewrite firstn_length; lia). reflexivity.
Qed.

Lemma vehicle_edit_wins_ok : vehicle_edit_wins.
Proof.
  intros cm d p m out H U R W.
  assert (L : length d = 31%nat).
  { unfold unmarshal_card_vehicle in U. apply bind_ok in U as (u & G & _). apply guard_ok in G. now apply Nat.eqb_eq. }
  destruct (append_card_vehicle_parts m d out R L W)
    as (f & l & v & b & Ef & El & Ev & Eb & Lo & P1 & P2 & P3 & P4 & P5 & P6).
  unfold unmarshal_card_vehicle in U. apply bind_ok in U as (u & _ & U). apply bind_ok in U as (f0 & Ef0 & U).
  apply bind_ok in U as (l0 & El0 & U). apply bind_ok in U as (v0 & Ev0 & U). apply bind_ok in U as (b0 & Eb0 & U).
  apply Ok_inj in U as <-. cbn [cv_odo_begin cv_odo_end cv_first_use cv_last_use cv_reg cv_counter].
  assert (T : forall i, (i + 4 <= length d)%nat -> length (sub d i 4) = 4%nat) by (intros; apply sub_length; lia).
  split; [now rewrite L|].
  split; [|split; [|split; [|split; [|split; [|split; [|split; [|split; [|split; [|split; [|split; [|split]]]]]]]]]]].
  - intros E. rewrite P1, E. apply odometer_back; auto; lia.
  - intros E. rewrite P2, E. apply odometer_back; auto; lia.
  - intros E. rewrite P3. rewrite E in Ef.
    rewrite (time_round_trip (sub d 6 4) f0) in Ef by (auto using bytes_ok_sub; apply T; lia). now apply Ok_inj in Ef.
  - intros E. rewrite P4. rewrite E in El.
    rewrite (time_round_trip (sub d 10 4) l0) in El by (auto using bytes_ok_sub; apply T; lia). now apply Ok_inj in El.
  - intros E K. rewrite P5. rewrite E in Ev.
    assert (N : nation_known (nth 0 (sub d 14 15) 0)).
    { destruct (nation_knownb (nth 0 (sub d 14 15) 0)) eqn:Nb; [now apply nation_knownb_iff|].
      exfalso. assert (~ nation_known (nth 0 (sub d 14 15) 0)).
      { intros Q. apply nation_knownb_iff in Q. congruence. }
      destruct (vreg_write_back cm _ _ Ev0) as [_ B]. rewrite (B H0) in Ev. discriminate. }
    assert (K1 : page_known (nth 1 (sub d 14 15) 0)) by (rewrite nth_sub by lia; exact K).
    rewrite (vreg_round_trip cm _ _ N K1 Ev0) in Ev.
    apply Ok_inj in Ev as <-. rewrite (copy_same d 14 29 15) by lia. reflexivity.
  - intros E. rewrite P6. rewrite E in Eb.
    rewrite (bcd_string_round_trip (sub d 29 2) b0) in Eb
      by (auto using bytes_ok_sub; rewrite sub_length; lia). apply Ok_inj in Eb as <-.
    rewrite (copy_same d 29 31 2) by lia. reflexivity.
  - intros E. rewrite P1. now apply odometer_value.
  - intros E. rewrite P2. now apply odometer_value.
  - intros E. rewrite P3. now apply writable_time_back.
  - intros E. rewrite P4. now apply writable_time_back.
  - intros w c E I. rewrite E in Ev. unfold append_vreg in Ev. apply bind_ok in Ev as (n & En & Ev).
    apply bind_ok in Ev as (s & Es & Ev). apply Ok_inj in Ev as <-.
    assert (TN : In nation_numeric_table all_enum_tables) by now repeat (try (left; reflexivity); right).
    assert (U : unmarshal_enum nation_numeric_table c = Ok (vr_nation w)) by (apply unmarshal_enum_iff; auto using enum_wf).
    destruct (vr_nation w =? ENUM_UNRECOGNIZED); [discriminate|].
    assert (M : marshal_enum nation_numeric_table (vr_nation w) = Ok c) by (apply marshal_enum_iff; auto using enum_wf).
    rewrite M in En. apply Ok_inj in En as <-.
    assert (Q : nth 0 (sub out 14 15) 0 = nth 14 out 0) by (rewrite nth_sub by lia; reflexivity).
    rewrite <- Q, P5. rewrite nth_sub by lia. unfold copy_into. rewrite app_nth2 by (rewrite firstn_length; lia).
    rewrite firstn_length. replace (14 + 0 - Nat.min 14 (length d))%nat with 0%nat by lia.
    change (29 - 14)%nat with 15%nat. reflexivity.
  - intros w s E I Rs Ls. rewrite E in Ev. unfold append_vreg in Ev. apply bind_ok in Ev as (n & En & Ev).
    rewrite I in Ev. apply bind_ok in Ev as (t & Es & Ev). apply Ok_inj in Ev as <-.
    unfold append_string_value in Es. rewrite Rs, Ls in Es. cbn [odflt length Nat.ltb Nat.leb bind] in Es.
    destruct (_ >? 13) eqn:Q; [discriminate|]. apply Ok_inj in Es as <-.
    set (e := encode_with_code_page _ _) in *. set (cp := code_page_of_encoding _) in *.
    change (Z.to_nat 13) with 13%nat in P5.
    assert (Lp : length (pad_spaces 13 e) = 13%nat).
    { unfold pad_spaces. rewrite app_length, repeat_length. lia. }
    assert (A : sub out 14 15 = n :: cp :: pad_spaces 13 e).
    { rewrite P5. apply sub_copy_in; cbn [length]; lia. }
    transitivity (sub (sub out 14 15) 1 14).
    + rewrite sub_sub by lia. reflexivity.
    + rewrite A. unfold sub. cbn [skipn]. apply firstn_all2. cbn [length]. lia.
  - intros c E Lb. rewrite E in Eb. destruct (bcd_pair_back _ _ Lb Eb) as [B Lb'].
    rewrite P6, sub_copy_in by lia. exact B.
Qed.

(** A special condition has two fields and no preserved bytes. *)
Definition condition_edit_wins : Prop :=
  forall m out, append_spec_cond m = Ok out ->
    length out = 5%nat /\
    (writable_time (sc_time m) -> unmarshal_time (sub out 0 4) = Ok (sc_time m)) /\
    (forall c, In (sc_type m, Some c) specific_condition_type_table -> sc_type m <> ENUM_UNRECOGNIZED ->
       nth 4 out 0 = c) /\
    (sc_type m = ENUM_UNRECOGNIZED -> 0 <= sc_unrecognized m < 256 -> nth 4 out 0 = sc_unrecognized m).

Lemma condition_edit_wins_ok : condition_edit_wins.
Proof.
  intros m out H. unfold append_spec_cond in H. apply bind_ok in H as (t & Et & H).
  apply bind_ok in H as (b & Eb & H). apply Ok_inj in H as <-.
  pose proof (append_time_len _ _ Et) as Lt. destruct (len4 _ Lt) as (x & y & z & w & ->).
  split; [reflexivity|]. split; [|split].
  - intros Wt. now apply (writable_time_back _ [x; y; z; w]).
  - intros c I N. destruct (Z.eqb_spec (sc_type m) ENUM_UNRECOGNIZED); [contradiction|].
    assert (TS : In specific_condition_type_table all_enum_tables) by now repeat (try (left; reflexivity); right).
    assert (M : marshal_enum specific_condition_type_table (sc_type m) = Ok c) by (apply marshal_enum_iff; auto using enum_wf).
    rewrite M in Eb. now apply Ok_inj in Eb.
  - intros E R. rewrite E in Eb. change (ENUM_UNRECOGNIZED =? ENUM_UNRECOGNIZED) with true in Eb.
    cbv iota in Eb. apply Ok_inj in Eb as <-. cbn [List.app nth]. unfold u8. now apply Z.mod_small.
Qed.

(** ** C65: edits win over preserved bytes *)

(** Whole files: whatever bytes the message kept when it was parsed, and however
    its record list was edited - records changed, added, removed, reordered - the
    file written is the pointer followed by the records of the list. *)
Definition edited_lists_win : Prop :=
  (forall x out, append_places (Some x) = Ok out <->
     exists bs, encodings append_place (ps_records x) bs /\ out = u8 (ps_newest x) :: concat bs) /\
  (forall x out, append_places_g2 (Some x) = Ok out <->
     exists bs, encodings append_place_g2 (ps2_records x) bs /\ out = to_be 2 (u16 (ps2_newest x)) ++ concat bs) /\
  (forall x out, append_vehicles (Some x) = Ok out <->
     exists bs, encodings append_card_vehicle (vs_records x) bs /\ out = to_be 2 (u16 (vs_newest x)) ++ concat bs) /\
  (forall x out, append_vehicles_g2 (Some x) = Ok out <->
     exists bs, encodings append_card_vehicle_g2 (vs2_records x) bs /\ out = to_be 2 (u16 (vs2_newest x)) ++ concat bs) /\
  (forall x out, append_conditions (Some x) = Ok out <->
     exists bs, encodings append_spec_cond (co_records x) bs /\ out = concat bs).

(** The Gen2 special conditions: pointer and records win over the bytes kept from
    the parse, and whatever of those bytes lies beyond the last record stays at the
    end of the file.  (A single kept byte makes the writer panic.) *)
Definition edited_conditions_g2_win : Prop :=
  forall x out, length (co2_raw x) <> 1%nat ->
    (append_conditions_g2 (Some x) = Ok out <->
     exists bs, encodings append_spec_cond (co2_records x) bs /\
       out = to_be 2 (u16 (co2_newest x)) ++ concat bs ++
             skipn (2 + 5 * length (co2_records x)) (co2_raw x)).

Lemma paint_fit_fits l : forall p c,
  (5 * length l <= length c)%nat ->
  paint_fit (p ++ c) (length p) l =
  let* bs := concat_res append_spec_cond l in Ok (Some (p ++ bs ++ skipn (5 * length l) c)).
Proof.
  induction l as [|r t IH]; intros p c H.
  { cbn. now rewrite app_nil_r || reflexivity. }
  cbn [length] in H. cbn [paint_fit concat_res].
  destruct (Nat.ltb_spec (length (p ++ c)) (length p + 5)) as [Q|_]; [rewrite app_length in Q; lia|].
  destruct (append_spec_cond r) as [b|e|] eqn:Eb; cbn [bind]; try reflexivity.
  pose proof (append_spec_cond_len _ _ Eb) as Lb. rewrite Lb. cbn [Nat.eqb guard bind].
  assert (C : copy_into (p ++ c) (length p) (length p + 5) b = (p ++ b) ++ skipn 5 c).
  { rewrite copy_into_eq by (rewrite ?app_length; lia).
    rewrite firstn_app_exact by reflexivity. rewrite <- app_assoc.
    rewrite skipn_app, skipn_all2 by lia. cbn [List.app].
    now replace (length p + 5 - length p)%nat with 5%nat by lia. }
  rewrite C. replace (length p + 5)%nat with (length (p ++ b)) by (rewrite app_length; lia).
  rewrite IH by (rewrite skipn_length; lia).
  destruct (concat_res append_spec_cond t) as [bs|e|]; cbn [bind]; try reflexivity.
  rewrite skipn_skipn, <- !app_assoc.
  change (length (r :: t)) with (S (length t)).
  replace (5 * S (length t))%nat with (5 + 5 * length t)%nat by lia.
  rewrite ?(Nat.add_comm (5 * length t) 5). reflexivity.
Qed.

Lemma paint_fit_done l : forall c off c',
  (off <= length c)%nat -> paint_fit c off l = Ok (Some c') -> (off + 5 * length l <= length c)%nat.
Proof.
  induction l as [|r t IH]; intros c off c' H E; [cbn [length]; lia|].
  cbn [paint_fit length] in *. destruct (Nat.ltb_spec (length c) (off + 5)) as [Q|Q]; [discriminate|].
  apply bind_ok in E as (b & Eb & E). apply bind_ok in E as (u & _ & E).
  apply IH in E; rewrite copy_into_length in * by lia; lia.
Qed.

Lemma paint_fit_short l : forall c off bs,
  (off <= length c < off + 5 * length l)%nat -> concat_res append_spec_cond l = Ok bs ->
  paint_fit c off l = Ok None.
Proof.
  induction l as [|r t IH]; intros c off bs H E; [cbn [length] in H; lia|].
  cbn [paint_fit concat_res length] in *. destruct (Nat.ltb_spec (length c) (off + 5)) as [Q|Q]; [reflexivity|].
  apply bind_ok in E as (b & Eb & E). apply bind_ok in E as (bt & Et & E).
  rewrite Eb. cbn [bind]. rewrite (append_spec_cond_len _ _ Eb). cbn [Nat.eqb guard bind].
  apply (IH _ _ bt); [rewrite copy_into_length by lia; lia|exact Et].
Qed.

Lemma edited_conditions_g2_ok : edited_conditions_g2_win.
Proof.
  intros x out N. unfold append_conditions_g2.
  set (p := to_be 2 (u16 (co2_newest x))). assert (Lp : length p = 2%nat) by apply to_be_length.
  clearbody p. set (raw := co2_raw x) in *. set (l := co2_records x). clearbody raw l.
  transitivity (exists b, concat_res append_spec_cond l = Ok b /\
                  out = p ++ b ++ skipn (2 + 5 * length l) raw).
  2: { split.
       - intros (b & E & ->). apply concat_res_ok in E as (bs & Eb & ->). exists bs. auto.
       - intros (bs & E & ->). exists (concat bs). split; [|reflexivity]. apply concat_res_ok. eauto. }
  destruct (Nat.ltb_spec 0 (length raw)) as [P|P].
  2: { destruct raw; [|cbn in P; lia]. cbn [bind]. rewrite skipn_nil. split.
       - intros E. apply bind_ok in E as (b & Eb & E). apply Ok_inj in E as <-. exists b. now rewrite app_nil_r.
       - intros (b & Eb & ->). rewrite Eb. cbn [bind]. now rewrite app_nil_r. }
  assert (Ls : (2 <= length raw)%nat) by lia.
  unfold slice. destruct (Nat.leb_spec 2 (length raw)) as [_|]; [|lia]. cbn [Nat.leb andb bind].
  assert (C : copy_into raw 0 2 p = p ++ skipn 2 raw).
  { rewrite copy_into_eq by lia. reflexivity. }
  rewrite C. destruct (Nat.le_gt_cases (2 + 5 * length l) (length raw)) as [Fit|Short].
  - replace 2%nat with (length p) at 2 by exact Lp. rewrite paint_fit_fits by (rewrite skipn_length; lia).
    rewrite skipn_skipn. replace (5 * length l + 2)%nat with (2 + 5 * length l)%nat by lia.
    destruct (concat_res append_spec_cond l) as [b|e|]; cbn [bind].
    + split; [intros E; apply Ok_inj in E as <-; eauto|intros (b' & E & ->); apply Ok_inj in E as <-; reflexivity].
    + split; [discriminate|intros (b & E & _); discriminate].
    + split; [discriminate|intros (b & E & _); discriminate].
  - assert (Lc : length (p ++ skipn 2 raw) = length raw) by (rewrite app_length, skipn_length; lia).
    rewrite (skipn_all2 (n := 2 + 5 * length l) raw) by lia. split.
    + intros E. apply bind_ok in E as ([c|] & Ec & E).
      * apply paint_fit_done in Ec; lia.
      * apply bind_ok in E as (b & Eb & E). apply Ok_inj in E as <-. exists b. now rewrite app_nil_r.
    + intros (b & Eb & ->). rewrite (paint_fit_short l _ 2 b) by (rewrite ?Lc; lia || exact Eb).
      cbn [bind]. rewrite Eb. cbn [bind]. now rewrite app_nil_r.
Qed.

(** Missing from the full claim: text that keeps its raw bytes, cleared regions
    and Gen2 special conditions removed from the end of the list, where the claim is
    false ([C65_edits_win_refuted]), and
    the other files (Props_EditFiles.v). *)
Theorem C65_edits_win_partial :
  edited_lists_win /\ edited_conditions_g2_win /\ place_edit_wins /\ vehicle_edit_wins /\ condition_edit_wins.
Proof.
  split; [|split; [exact edited_conditions_g2_ok|split; [exact place_edit_wins_ok|
    split; [exact vehicle_edit_wins_ok|exact condition_edit_wins_ok]]]].
  split; [|split; [|split; [|split]]]; intros x out.
  - unfold append_places. rewrite pointer_file_plain by exact append_place_len. reflexivity.
  - unfold append_places_g2. now rewrite pointer_file_plain by exact append_place_g2_len.
  - unfold append_vehicles. now rewrite pointer_file_plain by exact append_card_vehicle_len.
  - unfold append_vehicles_g2. now rewrite pointer_file_plain by exact append_card_vehicle_g2_len.
  - unfold append_conditions. now rewrite pointer_file_plain by exact append_spec_cond_len.
Qed.

(** A vehicle record, and the same record with three fields edited: the odometer,
    the nation and the counter arrive, everything else stays. *)
Definition edit_demo : bytes :=
  [0;0;100; 0;0;200; 95;0;0;0; 95;0;1;0; 13; 1;65;66;67;32;32;32;32;32;32;32;32;32;32; 0;18].

Example C65_edits_win_applies :
  exists p out,
    unmarshal_card_vehicle (fun _ b => b) edit_demo = Ok p /\
    append_card_vehicle (mkCV (cv_raw p) (cv_odo_begin p) 70000 (cv_first_use p) (cv_last_use p)
        (match cv_reg p with Some v => Some (mkVR FINLAND (vr_number v)) | None => None end)
        (Some (mkBcd 4321 2))) = Ok out /\
    out = [0;0;100; 1;17;112; 95;0;0;0; 95;0;1;0; 18; 1;65;66;67;32;32;32;32;32;32;32;32;32;32; 67;33].
Proof.
  eexists. eexists. split; [vm_compute; reflexivity|]. split; [vm_compute; reflexivity|]. reflexivity.
Qed.

(** The full claim fails in three ways: a new registration number is not written
    while the string keeps its raw bytes; clearing the region of a place leaves the
    old region; and removing the last special condition of a Gen2 file leaves it in
    the file. *)
Theorem C65_edits_win_refuted :
  (exists d p v s s' out,
     unmarshal_card_vehicle (fun _ b => b) d = Ok p /\ cv_reg p = Some v /\ vr_number v = Some s /\
     s' = mkSV (sv_raw s) (sv_encoding s) (sv_length s) [88; 89; 90] /\ sv_value s <> sv_value s' /\
     append_card_vehicle p = Ok out /\
     append_card_vehicle (mkCV (cv_raw p) (cv_odo_begin p) (cv_odo_end p) (cv_first_use p) (cv_last_use p)
       (Some (mkVR (vr_nation v) (Some s'))) (cv_counter p)) = Ok out) /\
  (exists d p out,
     unmarshal_place d = Ok p /\ pl_region p <> [] /\ append_place p = Ok out /\
     append_place (mkPlace (pl_raw p) (pl_time p) (pl_entry p) (pl_entry_unrecognized p) (pl_country p)
       (pl_country_unrecognized p) [] (pl_odometer p)) = Ok out) /\
  (exists d x r1 r2,
     unmarshal_conditions_g2 d = Ok x /\ co2_records x = [r1; r2] /\
     append_conditions_g2 (Some x) = Ok d /\
     append_conditions_g2 (Some (mkCond2 (co2_raw x) (co2_newest x) [r1])) = Ok d).
Proof.
  split; [|split].
  - exists edit_demo. do 5 eexists. split; [vm_compute; reflexivity|]. split; [reflexivity|]. split; [reflexivity|].
    split; [reflexivity|]. split; [vm_compute; discriminate|]. split; vm_compute; reflexivity.
  - exists [95;0;0;0; 1; 13; 7; 0;1;0]. do 2 eexists. split; [vm_compute; reflexivity|].
    split; [vm_compute; discriminate|]. split; vm_compute; reflexivity.
  - exists [0;1; 95;0;0;0;1; 95;0;1;0;2]. do 3 eexists. split; [vm_compute; reflexivity|].
    split; [vm_compute; reflexivity|]. split; vm_compute; reflexivity.
Qed.
