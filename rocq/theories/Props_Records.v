(** Properties C37 to C42: card files made of records. *)

From Verif Require Import Base Enums DDScalar Utf8 DDString DDRecord Chunks Scanner CardBasic CardRecords
  P_Scalar Props_Scalar P_Utf8 P_String Props_String P_Scanner Field P_Basic Props_Basic P_Record P_Records.

(** ** From chunks to offsets *)

Lemma in_chunks n b c : (0 < n)%nat ->
  (In c (chunks n b) <-> exists i, (i * n + n <= length b)%nat /\ c = sub b (i * n) n).
Proof.
  intros N. unfold chunks. rewrite in_map_iff. split.
  - intros (i & <- & I). exists i. apply in_seq in I. split; auto.
    pose proof (Nat.mul_div_le (length b) n ltac:(lia)). nia.
  - intros (i & L & ->). exists i. split; auto. apply in_seq.
    assert (i < length b / n)%nat; [|lia].
    apply Nat.div_le_lower_bound; [lia|]. nia.
Qed.

Lemma body_acc_at f h d : (0 < f_len f)%nat ->
  (body_acc f (skipn h d) = true <->
   forall i, (h + (i + 1) * f_len f <= length d)%nat -> f_acc f (sub d (h + i * f_len f) (f_len f)) = true).
Proof.
  intros N. unfold body_acc. rewrite forallb_forall. split.
  - intros A i L. rewrite <- sub_skipn. apply A. apply in_chunks; auto. exists i. split; auto.
    rewrite skipn_length. nia.
  - intros A c I. apply in_chunks in I as (i & L & ->); auto. rewrite sub_skipn. apply A.
    rewrite skipn_length in L. nia.
Qed.

(** The write-back is the identity exactly on whole files whose records are all
    written back unchanged. *)
Lemma file_exact h f d :
  good f -> (0 < f_len f)%nat -> bytes_ok d -> file_acc h f d = true ->
  (file_w h f d = Ok d <->
   ((length d - h) mod f_len f)%nat = 0%nat /\
   forall i, (h + (i + 1) * f_len f <= length d)%nat ->
     f_w f (sub d (h + i * f_len f) (f_len f)) = Ok (sub d (h + i * f_len f) (f_len f))).
Proof.
  intros G N H A. pose proof (file_good h f d G N H A) as [_ Q].
  apply andb_prop in A as [L A]. apply Nat.leb_le in L. split.
  - intros E. destruct (Q d E) as (_ & _ & LD & _ & _). split.
    + replace (length d - h)%nat with ((length d - h) / f_len f * f_len f)%nat by lia.
      apply Nat.mod_mul. lia.
    + unfold file_w in E. destruct (body_w f (skipn h d)) as [b|e|] eqn:B; cbn [bind] in E; try discriminate.
      apply Ok_inj in E. rewrite <- (firstn_skipn h d) in E at 2. apply app_inv_head in E. subst b.
      unfold body_w in B. apply concat_res_ok in B as (bs & F & E).
      assert (bs = chunks (f_len f) (skipn h d)).
      { rewrite E. symmetry. apply chunks_concat; auto.
        assert (HO := chunks_ok (f_len f) (skipn h d) N (bytes_ok_skipn _ _ H)).
        assert (HL := chunks_each (f_len f) (skipn h d) N).
        unfold body_acc in A. rewrite forallb_forall in A. revert A HO HL. clear - F G.
        induction F as [|c c' cs bs E F IH]; intros A HO HL; constructor.
        - inversion HO; inversion HL; subst. destruct (G c) as [_ Gc]; auto. { apply A; now left. } apply (Gc _ E).
        - apply IH; [intros x I; apply A; now right|inversion HO; auto|inversion HL; auto]. }
      subst bs. clear E. intros i Li. rewrite <- sub_skipn.
      assert (I : In (sub (skipn h d) (i * f_len f) (f_len f)) (chunks (f_len f) (skipn h d))).
      { apply in_chunks; auto. exists i. split; auto. rewrite skipn_length. nia. }
      revert I. generalize (sub (skipn h d) (i * f_len f) (f_len f)). clear - F.
      induction (chunks (f_len f) (skipn h d)) as [|c cs IH]; intros x I; [destruct I|].
      inversion F; subst. destruct I as [->|I]; auto.
  - intros [M E]. unfold file_w.
    assert (B : body_w f (skipn h d) = Ok (skipn h d)).
    { unfold body_w. apply concat_res_ok. exists (chunks (f_len f) (skipn h d)). split.
      - assert (X : forall c, In c (chunks (f_len f) (skipn h d)) -> f_w f c = Ok c).
        { intros c I. apply in_chunks in I as (i & Li & ->); auto. rewrite sub_skipn. apply E.
          rewrite skipn_length in Li. nia. }
        clear - X. induction (chunks (f_len f) (skipn h d)); constructor; auto with datatypes.
      - symmetry. apply concat_chunks_exact; auto. rewrite skipn_length. exact M. }
    rewrite B. cbn [bind]. now rewrite firstn_skipn.
Qed.

Lemma map_res_nth {X} (un : bytes -> res X) n h d rs i :
  (0 < n)%nat -> map_res un (chunks n (skipn h d)) = Ok rs -> (h + (i + 1) * n <= length d)%nat ->
  exists r, nth_error rs i = Some r /\ un (sub d (h + i * n) n) = Ok r.
Proof.
  intros N E L. apply map_res_ok in E.
  assert (C : nth_error (chunks n (skipn h d)) i = Some (sub d (h + i * n) n)).
  { unfold chunks. rewrite nth_error_map.
    assert (K : (i < length (skipn h d) / n)%nat).
    { rewrite skipn_length. pose proof (Nat.div_le_lower_bound (length d - h) n (i + 1) ltac:(lia)). nia. }
    replace (nth_error (seq 0 (length (skipn h d) / n)) i) with (Some i).
    - cbn [option_map]. now rewrite sub_skipn.
    - symmetry. rewrite nth_error_nth' with (d := 0%nat) by (rewrite seq_length; lia).
      rewrite seq_nth by lia. reflexivity. }
  clear L. revert C. generalize (sub d (h + i * n) n). revert i. induction E as [|c r cs rs Ec E IH]; intros [|i] b C; try discriminate.
  - cbn in C. injection C as ->. exists r. auto.
  - apply (IH i b C).
Qed.

Lemma map_res_length {A B} (f : A -> res B) l bs : map_res f l = Ok bs -> length bs = length l.
Proof. intros E. apply map_res_ok in E. induction E; cbn [length]; auto. Qed.

Lemma nth_repeat_lt (a d : Z) m n : (m < n)%nat -> nth m (repeat a n) d = a.
Proof. revert m; induction n; intros [|m] H; cbn; auto; try lia. apply IHn. lia. Qed.

(** * C39: places *)

(** Record [i] of the file [d] is described correctly. *)
Definition place_at (d : bytes) (o : nat) (r : place) : Prop :=
  pl_raw r = sub d o 10 /\ pl_region r = [nth (o + 6) d 0] /\
  pl_odometer r = be (sub d (o + 7) 3) /\
  pl_time r = (if be (sub d o 4) =? 0 then None else Some (mkTs (be (sub d o 4)) 0)) /\
  (forall v, In (v, Some (nth (o + 4) d 0)) entry_type_daily_work_period_table -> pl_entry r = v) /\
  (~ a_code entry_type_daily_work_period_table (nth (o + 4) d 0) ->
     pl_entry r = ENUM_UNRECOGNIZED /\ pl_entry_unrecognized r = Some (nth (o + 4) d 0)) /\
  (forall v, In (v, Some (nth (o + 5) d 0)) nation_numeric_table -> pl_country r = v) /\
  (~ a_code nation_numeric_table (nth (o + 5) d 0) ->
     pl_country r = ENUM_UNRECOGNIZED /\ pl_country_unrecognized r = Some (nth (o + 5) d 0)).

Lemma enum_or_unrecognized_at T b : enum_wfb T = true ->
  (forall v, In (v, Some b) T -> fst (unmarshal_enum_or_unrecognized T b) = v) /\
  (~ a_code T b -> fst (unmarshal_enum_or_unrecognized T b) = ENUM_UNRECOGNIZED /\
                   snd (unmarshal_enum_or_unrecognized T b) = Some b).
Proof.
  intros W. unfold unmarshal_enum_or_unrecognized. split.
  - intros v I. apply (unmarshal_enum_iff T b v W) in I. now rewrite I.
  - intros N. rewrite (a_code_ok T b W) in N. destruct (unmarshal_enum T b); auto. now elim N.
Qed.

Lemma place_at_ok d o r : (o + 10 <= length d)%nat -> unmarshal_place (sub d o 10) = Ok r -> place_at d o r.
Proof.
  intros L. unfold unmarshal_place. rewrite eq_guard by (apply sub_length; lia).
  rewrite !nth_sub by lia. rewrite !sub_sub by lia. rewrite Nat.add_0_r.
  unfold unmarshal_time. rewrite eq_guard by (apply sub_length; lia).
  intros E. unfold place_at. destruct (be (sub d o 4) =? 0); cbn [bind] in E; apply Ok_inj in E; subst r;
  cbn [pl_raw pl_region pl_odometer pl_time pl_entry pl_entry_unrecognized pl_country pl_country_unrecognized];
  destruct (enum_or_unrecognized_at entry_type_daily_work_period_table (nth (o + 4) d 0) eq_refl);
  destruct (enum_or_unrecognized_at nation_numeric_table (nth (o + 5) d 0) eq_refl); auto 10.
Qed.


Lemma file_w_id h n d : (0 < n)%nat -> (h <= length d)%nat ->
  file_w h (f_id n) d = Ok (firstn (h + (length d - h) / n * n) d).
Proof.
  intros N L. unfold file_w, body_w. cbn [f_id f_len f_w].
  assert (C : forall cs, concat_res (fun d => Ok d) cs = Ok (concat cs)).
  { induction cs as [|c cs IH]; cbn [concat_res concat bind]; auto. now rewrite IH. }
  rewrite C. cbn [bind]. f_equal. rewrite concat_chunks by auto. rewrite skipn_length.
  set (k := ((length d - h) / n * n)%nat).
  replace (firstn (h + k) d) with (firstn (h + k) (firstn h d ++ skipn h d)) by (now rewrite firstn_skipn).
  rewrite firstn_app, firstn_length_le by lia.
  rewrite (firstn_all2 (firstn h d)) by (rewrite firstn_length; lia).
  do 2 f_equal. lia.
Qed.

Lemma firstn_whole h n (d : bytes) : (0 < n)%nat -> (h <= length d)%nat ->
  (firstn (h + (length d - h) / n * n) d = d <-> ((length d - h) mod n)%nat = 0%nat).
Proof.
  intros N L. pose proof (Nat.div_mod (length d - h) n ltac:(lia)) as D. split.
  - intros E. apply (f_equal (@length Z)) in E. rewrite firstn_length in E. rewrite Nat.mul_comm in D. lia.
  - intros E. apply firstn_all2. rewrite Nat.mul_comm in D. lia.
Qed.

Theorem C39_places_round_trip :
  forall d, bytes_ok d ->
  ((length d = 0)%nat -> exists e, unmarshal_places d = Err e) /\
  ((1 <= length d)%nat ->
   exists x, unmarshal_places d = Ok x /\
     (* what is listed *)
     ps_newest x = nth 0 d 0 /\ length (ps_records x) = ((length d - 1) / 10)%nat /\
     (forall i, (1 + (i + 1) * 10 <= length d)%nat ->
        exists r, nth_error (ps_records x) i = Some r /\ place_at d (1 + i * 10) r) /\
     (* what is written: everything but an incomplete record at the end *)
     append_places (Some x) = Ok (firstn (1 + (length d - 1) / 10 * 10) d) /\
     (append_places (Some x) = Ok d <-> ((length d - 1) mod 10)%nat = 0%nat)).
Proof.
  intros d H. split; intros L.
  - apply short_guard. lia.
  - pose proof (places_codec d H) as C. unfold unmarshal_places in *.
    rewrite long_guard in * by lia.
    assert (MR := map_total unmarshal_place append_place 10 (fun c => mkPlace c None 0 None 0 None [] 0)
                    (skipn 1 d) place_implements ltac:(lia) (bytes_ok_skipn _ _ H)).
    eexists. split; [reflexivity|]. cbv beta iota in C. destruct C as (_ & C & _).
    cbn [ps_newest ps_records] in *. split; [reflexivity|]. split.
    { rewrite map_length, chunks_count, skipn_length. reflexivity. }
    split.
    { intros i Li. destruct (map_res_nth unmarshal_place 10 1 d _ i ltac:(lia) MR Li) as (r & E & U).
      exists r. split; auto. apply place_at_ok; auto. lia. }
    rewrite C, file_w_id by lia. split; auto.
    rewrite <- (firstn_whole 1 10 d) by lia. split; [apply Ok_inj|now intros ->].
Qed.

(** A file with two records, one of them with an unknown country and entry type. *)
Definition places_sample : bytes :=
  [0; 0x5E; 0x0B; 0xE1; 0x00; 0x01; 0x12; 0x01; 0x00; 0x27; 0x10;
      0; 0; 0; 0; 0x55; 0xEE; 0xAB; 0; 0; 1].

Example C39_sample :
  exists x r, unmarshal_places places_sample = Ok x /\ append_places (Some x) = Ok places_sample /\
    nth_error (ps_records x) 1 = Some r /\ pl_country r = ENUM_UNRECOGNIZED /\ pl_country_unrecognized r = Some 0xEE.
Proof. do 2 eexists. split; [vm_compute; reflexivity|]. split; [vm_compute; reflexivity|]. repeat split. Qed.

(** The second generation adds a GNSS position to each record. *)
Definition gnss_at (d : bytes) (o : nat) (g : gnss_place) : Prop :=
  gp_time g = (if be (sub d o 4) =? 0 then None else Some (mkTs (be (sub d o 4)) 0)) /\
  gp_accuracy g = nth (o + 4) d 0.

Definition place_g2_at (d : bytes) (o : nat) (r : place_g2) : Prop :=
  pl2_raw r = sub d o 21 /\ pl2_region r = [nth (o + 6) d 0] /\
  pl2_odometer r = be (sub d (o + 7) 3) /\
  pl2_time r = (if be (sub d o 4) =? 0 then None else Some (mkTs (be (sub d o 4)) 0)) /\
  (forall v, In (v, Some (nth (o + 4) d 0)) entry_type_daily_work_period_table -> pl2_entry r = v) /\
  (~ a_code entry_type_daily_work_period_table (nth (o + 4) d 0) ->
     pl2_entry r = ENUM_UNRECOGNIZED /\ pl2_entry_unrecognized r = Some (nth (o + 4) d 0)) /\
  (forall v, In (v, Some (nth (o + 5) d 0)) nation_numeric_table -> pl2_country r = v) /\
  (~ a_code nation_numeric_table (nth (o + 5) d 0) ->
     pl2_country r = ENUM_UNRECOGNIZED /\ pl2_country_unrecognized r = Some (nth (o + 5) d 0)) /\
  exists g, pl2_gnss r = Some g /\ gnss_at d (o + 10) g.

Lemma gnss_at_ok d o g : (o + 11 <= length d)%nat -> unmarshal_gnss_place (sub d o 11) = Ok g -> gnss_at d o g.
Proof.
  intros L. unfold unmarshal_gnss_place. rewrite eq_guard by (apply sub_length; lia).
  rewrite !nth_sub by lia. rewrite !sub_sub by lia. rewrite Nat.add_0_r.
  unfold unmarshal_time. rewrite eq_guard by (apply sub_length; lia).
  intros E. unfold gnss_at. destruct (be (sub d o 4) =? 0); cbn [bind] in E;
    apply bind_ok in E as (ge & _ & E); apply Ok_inj in E; subst g; auto.
Qed.

Lemma place_g2_at_ok d o r :
  (o + 21 <= length d)%nat -> unmarshal_place_g2 (sub d o 21) = Ok r -> place_g2_at d o r.
Proof.
  intros L. unfold unmarshal_place_g2. rewrite eq_guard by (apply sub_length; lia).
  rewrite !nth_sub by lia. rewrite !sub_sub by lia. rewrite Nat.add_0_r.
  unfold unmarshal_time. rewrite eq_guard by (apply sub_length; lia).
  intros E. unfold place_g2_at. destruct (be (sub d o 4) =? 0); cbn [bind] in E;
  apply bind_ok in E as (g & Eg & E); apply Ok_inj in E; subst r;
  apply gnss_at_ok in Eg; try lia;
  cbn [pl2_raw pl2_region pl2_odometer pl2_time pl2_entry pl2_entry_unrecognized pl2_country
       pl2_country_unrecognized pl2_gnss];
  destruct (enum_or_unrecognized_at entry_type_daily_work_period_table (nth (o + 4) d 0) eq_refl);
  destruct (enum_or_unrecognized_at nation_numeric_table (nth (o + 5) d 0) eq_refl);
  repeat (split; [solve [auto]|]); exists g; auto.
Qed.

Theorem C39_places_g2_round_trip :
  forall d, bytes_ok d ->
  ((length d < 2)%nat -> exists e, unmarshal_places_g2 d = Err e) /\
  ((2 <= length d)%nat ->
   exists x, unmarshal_places_g2 d = Ok x /\
     ps2_newest x = be (sub d 0 2) /\ length (ps2_records x) = ((length d - 2) / 21)%nat /\
     (forall i, (2 + (i + 1) * 21 <= length d)%nat ->
        exists r, nth_error (ps2_records x) i = Some r /\ place_g2_at d (2 + i * 21) r) /\
     append_places_g2 (Some x) = Ok (firstn (2 + (length d - 2) / 21 * 21) d) /\
     (append_places_g2 (Some x) = Ok d <-> ((length d - 2) mod 21)%nat = 0%nat)).
Proof.
  intros d H. split; intros L.
  - apply short_guard. lia.
  - pose proof (places_g2_codec d H) as C. unfold unmarshal_places_g2 in *.
    rewrite long_guard in * by lia.
    assert (MR := map_total unmarshal_place_g2 append_place_g2 21
                    (fun c => mkPlace2 c None 0 None 0 None [] 0 None)
                    (skipn 2 d) place_g2_implements ltac:(lia) (bytes_ok_skipn _ _ H)).
    eexists. split; [reflexivity|]. cbv beta iota in C. destruct C as (_ & C & _).
    cbn [ps2_newest ps2_records] in *. split; [reflexivity|]. split.
    { rewrite map_length, chunks_count, skipn_length. reflexivity. }
    split.
    { intros i Li. destruct (map_res_nth unmarshal_place_g2 21 2 d _ i ltac:(lia) MR Li) as (r & E & U).
      exists r. split; auto. apply place_g2_at_ok; auto. lia. }
    rewrite C, file_w_id by lia. split; auto.
    rewrite <- (firstn_whole 2 21 d) by lia. split; [apply Ok_inj|now intros ->].
Qed.

Example C39_g2_sample :
  let d := [0; 1; 0x5E; 0x0B; 0xE1; 0x00; 0x77; 0xEE; 0x01; 0x00; 0x27; 0x10;
            0x5E; 0x0B; 0xE1; 0x00; 9; 0x00; 0xEA; 0xC4; 0xFF; 0x15; 0xA0] in
  exists x, unmarshal_places_g2 d = Ok x /\ append_places_g2 (Some x) = Ok d.
Proof. eexists. split; [vm_compute; reflexivity|vm_compute; reflexivity]. Qed.

(** * C40: vehicles used *)

Lemma decimalb_iff d : bytes_ok d -> decimalb d = true <-> all_decimal d.
Proof.
  intros _. unfold decimalb, all_decimal. rewrite forallb_forall, Forall_forall.
  split; intros A b I; specialize (A b I); lia.
Qed.

Lemma sub2 d o : (o + 2 <= length d)%nat -> sub d o 2 = [nth o d 0; nth (o + 1) d 0].
Proof.
  intros L. change (sub d o (1 + 1) = [nth o d 0; nth (o + 1) d 0]).
  rewrite <- (sub_join d o 1 1 (o + 1)) by reflexivity. rewrite !sub_1 by lia. reflexivity.
Qed.

(** What one record of a vehicles file says. *)
Definition vehicle_at (d : bytes) (o : nat) (r : card_vehicle) : Prop :=
  cv_raw r = sub d o 31 /\ cv_odo_begin r = be (sub d o 3) /\ cv_odo_end r = be (sub d (o + 3) 3) /\
  cv_first_use r = (if be (sub d (o + 6) 4) =? 0 then None else Some (mkTs (be (sub d (o + 6) 4)) 0)) /\
  cv_last_use r = (if be (sub d (o + 10) 4) =? 0 then None else Some (mkTs (be (sub d (o + 10) 4)) 0)) /\
  exists v, cv_reg r = Some v /\ forall n, In (n, Some (nth (o + 14) d 0)) nation_numeric_table -> vr_nation v = n.

Lemma unmarshal_time_at d o : (o + 4 <= length d)%nat ->
  unmarshal_time (sub d o 4) = Ok (if be (sub d o 4) =? 0 then None else Some (mkTs (be (sub d o 4)) 0)).
Proof.
  intros L. unfold unmarshal_time. rewrite eq_guard by (apply sub_length; lia). now destruct (_ =? 0).
Qed.

Lemma vreg_nation_at cm d v n :
  unmarshal_vreg cm d = Ok v -> In (n, Some (nth 0 d 0)) nation_numeric_table -> vr_nation v = n.
Proof.
  intros U I. apply (unmarshal_enum_iff nation_numeric_table _ _ eq_refl) in I. revert U.
  unfold unmarshal_vreg. rewrite I. intros U. inv_bind U. inv_bind U. apply Ok_inj in U. subst v. cbn [vr_nation].
  try reflexivity.
Qed.

Lemma vehicle_at_ok cm d o r : (o + 31 <= length d)%nat ->
  unmarshal_card_vehicle cm (sub d o 31) = Ok r -> vehicle_at d o r.
Proof.
  intros L. unfold unmarshal_card_vehicle. rewrite eq_guard by (apply sub_length; lia).
  rewrite !sub_sub by lia. rewrite Nat.add_0_r, !unmarshal_time_at by lia. cbn [bind].
  intros E. apply bind_ok in E as (v & Ev & E). apply bind_ok in E as (c & Ec & E). apply Ok_inj in E. subst r.
  unfold vehicle_at. cbn [cv_raw cv_odo_begin cv_odo_end cv_first_use cv_last_use cv_reg].
  repeat (split; [reflexivity|]). exists v. split; auto. intros n I. eapply vreg_nation_at; eauto.
  rewrite nth_sub by lia. now rewrite Nat.add_0_r.
Qed.

Lemma f_vreg_unknown d : (1 <= length d)%nat -> ~ a_code nation_numeric_table (nth 0 d 0) -> f_w f_vreg d = fail.
Proof.
  intros L N. unfold f_vreg. rewrite fseq_w. cbn [w_at f_nation f_w f_len]. rewrite nth_sub by lia.
  rewrite <- nation_a_code, <- nation_knownb_iff in N. cbn [Nat.add].
  destruct (nation_knownb (nth 0 d 0)); [congruence|reflexivity].
Qed.

Lemma vehicle_fields_at d o :
  bytes_ok d -> (o + 31 <= length d)%nat ->
  (f_acc (fseq vehicle_fields) (sub d o 31) = true <-> all_decimal [nth (o + 29) d 0; nth (o + 30) d 0]) /\
  (f_acc (fseq vehicle_fields) (sub d o 31) = true ->
   (f_w (fseq vehicle_fields) (sub d o 31) = Ok (sub d o 31) <->
     a_code nation_numeric_table (nth (o + 14) d 0) /\ legal_code_page (nth (o + 15) d 0))) /\
  (~ a_code nation_numeric_table (nth (o + 14) d 0) -> f_w (fseq vehicle_fields) (sub d o 31) = fail).
Proof.
  intros H L. rewrite fseq_acc, fseq_w. split; [|split].
  - unfold vehicle_fields. cbn [acc_at f_id f_if f_acc f_len Nat.add]. change (f_len f_vreg) with 15%nat.
    cbn [Nat.add]. rewrite vreg_acc. cbn [andb]. rewrite andb_true_r, !sub_sub by lia.
    rewrite decimalb_iff by auto using bytes_ok_sub. rewrite sub2 by lia.
    replace (o + 29 + 1)%nat with (o + 30)%nat by lia. tauto.
  - intros A. rewrite (w_at_exact vehicle_fields (sub d o 31)); auto using vehicle_fields_good, bytes_ok_sub.
    + unfold vehicle_fields. cbn [exact_at f_id f_if f_w f_len Nat.add]. change (f_len f_vreg) with 15%nat.
      rewrite exact_vreg by (rewrite ?sub_length by lia; auto using bytes_ok_sub; lia).
      cbn [Nat.add]. rewrite !nth_sub by lia. rewrite legal_known. rewrite <- nation_a_code. tauto.
    + change (length (sub d o 31) = 31%nat). apply sub_length. lia.
  - intros N. unfold vehicle_fields. cbn [w_at f_id f_if f_w f_len Nat.add]. change (f_len f_vreg) with 15%nat.
    cbn [bind]. rewrite !sub_sub by lia. rewrite f_vreg_unknown; auto.
    + rewrite sub_length; lia.
    + rewrite nth_sub by lia. now rewrite Nat.add_0_r.
Qed.

(** A failing record makes the file fail. *)
Lemma file_w_fails h f d i :
  (0 < f_len f)%nat -> file_w h f d <> Panic -> (h + (i + 1) * f_len f <= length d)%nat ->
  f_w f (sub d (h + i * f_len f) (f_len f)) = fail -> exists e, file_w h f d = Err e.
Proof.
  intros N P L E. destruct (file_w h f d) as [r|e|] eqn:W; [|eauto|congruence].
  unfold file_w in W. destruct (body_w f (skipn h d)) as [b|e|] eqn:B; try discriminate.
  unfold body_w in B. apply concat_res_ok in B as (bs & F & _). exfalso.
  assert (I : In (sub d (h + i * f_len f) (f_len f)) (chunks (f_len f) (skipn h d))).
  { apply in_chunks; auto. exists i. rewrite sub_skipn. split; auto. rewrite skipn_length. nia. }
  clear - F I E. induction F as [|c b cs bs Ec F IH]; [destruct I|]. destruct I as [->|I]; auto.
  rewrite E in Ec. discriminate.
Qed.

Theorem C40_vehicles_partial :
  forall cm d, bytes_ok d -> (2 <= length d)%nat ->
  let rec i := (2 + i * 31)%nat in
  let inside i := (rec i + 31 <= length d)%nat in
  (is_ok (unmarshal_vehicles cm d) = true <->
     forall i, inside i -> all_decimal [nth (rec i + 29) d 0; nth (rec i + 30) d 0]) /\
  forall x, unmarshal_vehicles cm d = Ok x ->
    vs_newest x = be (sub d 0 2) /\ length (vs_records x) = ((length d - 2) / 31)%nat /\
    (forall i, inside i -> exists r, nth_error (vs_records x) i = Some r /\ vehicle_at d (rec i) r) /\
    (* the bytes come back exactly when the file is whole, and each registration has
       a known nation and code page *)
    (append_vehicles (Some x) = Ok d <->
       ((length d - 2) mod 31)%nat = 0%nat /\
       forall i, inside i -> a_code nation_numeric_table (nth (rec i + 14) d 0) /\
                             legal_code_page (nth (rec i + 15) d 0)) /\
    (* with an unknown nation nothing at all can be written *)
    ((exists i, inside i /\ ~ a_code nation_numeric_table (nth (rec i + 14) d 0)) ->
       exists e, append_vehicles (Some x) = Err e).
Proof.
  intros cm d H L rec inside. pose proof (vehicles_codec cm d H) as C. cbv beta in C.
  set (f := fseq vehicle_fields) in *. assert (FL : f_len f = 31%nat) by reflexivity.
  assert (N : (0 < f_len f)%nat) by lia.
  assert (FA : file_acc 2 f d = true <->
    forall i, inside i -> all_decimal [nth (rec i + 29) d 0; nth (rec i + 30) d 0]).
  { unfold file_acc. destruct (Nat.leb_spec 2 (length d)); [|lia]. cbn [andb].
    rewrite body_acc_at by auto. rewrite FL. split; intros A i I.
    - apply (vehicle_fields_at d (rec i)); auto. apply A. unfold inside, rec in I. lia.
    - apply (vehicle_fields_at d (rec i)); auto; [unfold rec; lia|]. apply A. unfold inside, rec. lia. }
  split.
  - rewrite <- FA. destruct (unmarshal_vehicles cm d) as [x|e|]; cbn [is_ok].
    + destruct C as [-> _]. tauto.
    + rewrite C. tauto.
    + contradiction.
  - intros x U. rewrite U in C. destruct C as (CA & CW & CP & _). rewrite CW.
    unfold unmarshal_vehicles in U. rewrite long_guard in U by lia.
    apply bind_ok in U as (rs & M & U). apply Ok_inj in U. subst x. cbn [vs_newest vs_records].
    split; auto. split.
    { rewrite (map_res_length _ _ _ M), chunks_count, skipn_length. reflexivity. }
    split.
    { intros i I. destruct (map_res_nth _ 31 2 d rs i ltac:(lia) M) as (r & E & U); [unfold inside, rec in I; lia|].
      exists r. split; auto. eapply vehicle_at_ok; eauto. }
    split.
    + rewrite file_exact by (auto; apply good_seq, vehicle_fields_good). rewrite FL.
      assert (A : forall i, inside i -> f_acc f (sub d (rec i) 31) = true).
      { intros i I. apply (vehicle_fields_at d (rec i)); auto. apply FA; auto. }
      split; intros [M' Q]; split; auto; intros i I.
      * apply (vehicle_fields_at d (rec i)); auto. apply Q. unfold inside, rec in I. lia.
      * apply (vehicle_fields_at d (rec i)); auto; [unfold rec; lia|apply A|apply Q]; unfold inside, rec; lia.
    + intros (i & I & NC). apply (file_w_fails 2 f d i); auto.
      * rewrite FL. unfold inside, rec in I. lia.
      * apply (vehicle_fields_at d (rec i)); auto.
Qed.

Definition vehicle_sample (nation page : Z) : bytes :=
  [0; 1] ++ [0; 0x27; 0x10; 0; 0x27; 0x74; 0x5E; 0x0B; 0xE1; 0; 0x5E; 0x0C; 0; 0] ++
  [nation; page; 65; 66; 67; 45; 49; 50; 51; 32; 32; 32; 32; 32; 32] ++ [0x00; 0x01].

Example C40_sample :
  exists x, unmarshal_vehicles (fun _ b => b) (vehicle_sample 0x12 1) = Ok x /\
    append_vehicles (Some x) = Ok (vehicle_sample 0x12 1).
Proof. eexists. split; [vm_compute; reflexivity|vm_compute; reflexivity]. Qed.

(** ** Second generation: also the VIN matters *)

(** Every zero byte is followed by something that is neither zero nor blank. *)
Definition vin_kept (v : bytes) : Prop :=
  forall j, (j < length v)%nat -> nth j v 0 = 0 ->
  exists k, (j < k < length v)%nat /\ nth k v 0 <> 0 /\ nth k v 0 <> 32.

Lemma trim_right_split cut l : exists s, l = trim_right_bytes cut l ++ s /\ Forall (fun b => cut b = true) s /\
  (trim_right_bytes cut l = [] \/ exists t b, trim_right_bytes cut l = t ++ [b] /\ cut b = false).
Proof.
  induction l as [|b l IH]; cbn [trim_right_bytes].
  - exists []. auto.
  - destruct IH as (s & E & F & D). destruct (trim_right_bytes cut l) as [|c t] eqn:T.
    + cbn [app] in E. subst s. destruct (cut b) eqn:Cb.
      * exists (b :: l). split; auto.
      * exists l. split; auto. split; auto. right. exists [], b. auto.
    + exists s. split; [cbn [app] in *; now rewrite E at 1|]. split; auto. right.
      destruct D as [D|(t' & b' & D & Cb)]; [discriminate|]. exists (b :: t'), b'. split; auto. now rewrite D.
Qed.

Lemma vin_exact v : length v = 17%nat -> (w_vin v = v <-> vin_kept v).
Proof.
  intros L. unfold w_vin. pose proof (trim_right_le vin_cut v) as LE.
  destruct (trim_right_split vin_cut v) as (s & E & F & D). set (t := trim_right_bytes vin_cut v) in *. clearbody t.
  rewrite firstn_all2 by lia. unfold pad_spaces. rewrite E in L. rewrite app_length in L.
  assert (EQ : t ++ repeat 32 (17 - length t) = v <-> s = repeat 32 (17 - length t)).
  { rewrite E. split; [intros X; now apply app_inv_head in X|now intros ->]. }
  rewrite EQ. unfold vin_kept. split.
  - intros S j J Z0. assert (K : (j < length t)%nat).
    { destruct (Nat.lt_ge_cases j (length t)); auto. exfalso.
      rewrite E, app_length in J. rewrite E, S in Z0.
      rewrite app_nth2 in Z0 by lia. rewrite nth_repeat_lt in Z0 by lia. discriminate. }
    destruct D as [D|(t' & b & D & Cb)]; [rewrite D in K; simpl in K; lia|].
    exists (length t'). rewrite D, app_length in K. simpl in K.
    assert (Nb : nth (length t') v 0 = b).
    { rewrite E, D, <- app_assoc. rewrite app_nth2, Nat.sub_diag by lia. reflexivity. }
    rewrite Nb. unfold vin_cut in Cb. rewrite E, app_length, D, app_length. simpl.
    assert (j <> length t').
    { intros ->. rewrite Nb in Z0. subst b. discriminate. }
    split; [lia|]. destruct (Z.eqb_spec b 0), (Z.eqb_spec b 32); auto; discriminate.
  - intros K. apply nth_ext with (d := 0) (d' := 0). { rewrite repeat_length. lia. }
    intros n Hn. rewrite nth_repeat_lt by lia.
    rewrite Forall_forall in F.
    assert (G : forall m, (m < length s)%nat -> nth m s 0 = 0 \/ nth m s 0 = 32).
    { intros m Hm. specialize (F (nth m s 0) (nth_In s 0 Hm)). unfold vin_cut in F.
      destruct (Z.eqb_spec (nth m s 0) 0), (Z.eqb_spec (nth m s 0) 32); auto; discriminate. }
    destruct (G n Hn) as [Z0|]; auto. exfalso.
    assert (NV : forall m, nth (length t + m) v 0 = nth m s 0).
    { intros m. rewrite E, app_nth2 by lia. f_equal. lia. }
    destruct (K (length t + n)%nat) as (k & Hk & A & B).
    + rewrite E, app_length. lia.
    + now rewrite NV.
    + rewrite E, app_length in Hk. replace k with (length t + (k - length t))%nat in A, B by lia.
      rewrite NV in A, B. destruct (G (k - length t)%nat); [lia|congruence|congruence].
Qed.

Definition vehicle_g2_at (d : bytes) (o : nat) (r : card_vehicle_g2) : Prop :=
  cv2_raw r = sub d o 48 /\ cv2_odo_begin r = be (sub d o 3) /\ cv2_odo_end r = be (sub d (o + 3) 3) /\
  cv2_first_use r = (if be (sub d (o + 6) 4) =? 0 then None else Some (mkTs (be (sub d (o + 6) 4)) 0)) /\
  cv2_last_use r = (if be (sub d (o + 10) 4) =? 0 then None else Some (mkTs (be (sub d (o + 10) 4)) 0)) /\
  (exists v, cv2_reg r = Some v /\ forall n, In (n, Some (nth (o + 14) d 0)) nation_numeric_table -> vr_nation v = n) /\
  exists k, cv2_vin r = sub d (o + 31) k /\ (k <= 17)%nat /\
    forall j, (k <= j < 17)%nat -> nth (o + 31 + j) d 0 = 0 \/ nth (o + 31 + j) d 0 = 32.

Lemma vehicle_g2_at_ok cm d o r : (o + 48 <= length d)%nat ->
  unmarshal_card_vehicle_g2 cm (sub d o 48) = Ok r -> vehicle_g2_at d o r.
Proof.
  intros L. unfold unmarshal_card_vehicle_g2. rewrite eq_guard by (apply sub_length; lia).
  rewrite !sub_sub by lia. rewrite Nat.add_0_r, !unmarshal_time_at by lia. cbn [bind].
  intros E. apply bind_ok in E as (v & Ev & E). apply bind_ok in E as (c & Ec & E). apply Ok_inj in E. subst r.
  unfold vehicle_g2_at. cbn [cv2_raw cv2_odo_begin cv2_odo_end cv2_first_use cv2_last_use cv2_reg cv2_vin].
  repeat (split; [reflexivity|]). split.
  - exists v. split; auto. intros n I. eapply vreg_nation_at; eauto.
    rewrite nth_sub by lia. now rewrite Nat.add_0_r.
  - destruct (trim_right_split vin_cut (sub d (o + 31) 17)) as (s & E & F & _).
    assert (LS : length (sub d (o + 31) 17) = 17%nat) by (apply sub_length; lia).
    set (t := trim_right_bytes vin_cut (sub d (o + 31) 17)) in *. clearbody t.
    exists (length t). rewrite E, app_length in LS. split; [|split; [lia|]].
    + apply (f_equal (firstn (length t))) in E. rewrite firstn_app_exact in E by auto.
      etransitivity; [symmetry; exact E|]. unfold sub. rewrite firstn_firstn. f_equal. lia.
    + intros j J. rewrite <- (nth_sub d (o + 31) 17 j 0) by lia. rewrite E, app_nth2 by lia.
      rewrite Forall_forall in F. assert (IN : In (nth (j - length t) s 0) s) by (apply nth_In; lia).
      specialize (F _ IN).
      unfold vin_cut in F. destruct (Z.eqb_spec (nth (j - length t) s 0) 0), (Z.eqb_spec (nth (j - length t) s 0) 32);
        auto; discriminate.
Qed.

Lemma vehicle_g2_fields_at d o :
  bytes_ok d -> (o + 48 <= length d)%nat ->
  (f_acc (fseq vehicle_g2_fields) (sub d o 48) = true <-> all_decimal [nth (o + 29) d 0; nth (o + 30) d 0]) /\
  (f_acc (fseq vehicle_g2_fields) (sub d o 48) = true ->
   (f_w (fseq vehicle_g2_fields) (sub d o 48) = Ok (sub d o 48) <->
     a_code nation_numeric_table (nth (o + 14) d 0) /\ legal_code_page (nth (o + 15) d 0) /\
     vin_kept (sub d (o + 31) 17))) /\
  (~ a_code nation_numeric_table (nth (o + 14) d 0) -> f_w (fseq vehicle_g2_fields) (sub d o 48) = fail).
Proof.
  intros H L. rewrite fseq_acc, fseq_w. split; [|split].
  - unfold vehicle_g2_fields. cbn [acc_at f_id f_if f_vin f_fun f_acc f_len Nat.add]. change (f_len f_vreg) with 15%nat.
    cbn [Nat.add]. rewrite vreg_acc. cbn [andb]. rewrite andb_true_r, !sub_sub by lia.
    rewrite decimalb_iff by auto using bytes_ok_sub. rewrite sub2 by lia.
    replace (o + 29 + 1)%nat with (o + 30)%nat by lia. tauto.
  - intros A. rewrite (w_at_exact vehicle_g2_fields (sub d o 48)); auto using vehicle_g2_fields_good, bytes_ok_sub.
    + unfold vehicle_g2_fields. cbn [exact_at f_id f_if f_vin f_fun f_w f_len Nat.add]. change (f_len f_vreg) with 15%nat.
      rewrite exact_vreg by (rewrite ?sub_length by lia; auto using bytes_ok_sub; lia).
      cbn [Nat.add]. rewrite !nth_sub by lia. rewrite legal_known. rewrite <- nation_a_code.
      rewrite !sub_sub by lia. rewrite <- vin_exact by (apply sub_length; lia).
      assert (X : forall a b : bytes, Ok a = Ok b <-> a = b) by (split; [apply Ok_inj|now intros ->]).
      rewrite !X. tauto.
    + change (length (sub d o 48) = 48%nat). apply sub_length. lia.
  - intros N. unfold vehicle_g2_fields. cbn [w_at f_id f_if f_w f_len Nat.add]. change (f_len f_vreg) with 15%nat.
    cbn [bind]. rewrite !sub_sub by lia. rewrite f_vreg_unknown; auto.
    + rewrite sub_length; lia.
    + rewrite nth_sub by lia. now rewrite Nat.add_0_r.
Qed.

Theorem C40_vehicles_g2_partial :
  forall cm d, bytes_ok d -> (2 <= length d)%nat ->
  let rec i := (2 + i * 48)%nat in
  let inside i := (rec i + 48 <= length d)%nat in
  (is_ok (unmarshal_vehicles_g2 cm d) = true <->
     forall i, inside i -> all_decimal [nth (rec i + 29) d 0; nth (rec i + 30) d 0]) /\
  forall x, unmarshal_vehicles_g2 cm d = Ok x ->
    vs2_newest x = be (sub d 0 2) /\ length (vs2_records x) = ((length d - 2) / 48)%nat /\
    (forall i, inside i -> exists r, nth_error (vs2_records x) i = Some r /\ vehicle_g2_at d (rec i) r) /\
    (append_vehicles_g2 (Some x) = Ok d <->
       ((length d - 2) mod 48)%nat = 0%nat /\
       forall i, inside i -> a_code nation_numeric_table (nth (rec i + 14) d 0) /\
                             legal_code_page (nth (rec i + 15) d 0) /\
                             vin_kept (sub d (rec i + 31) 17)) /\
    ((exists i, inside i /\ ~ a_code nation_numeric_table (nth (rec i + 14) d 0)) ->
       exists e, append_vehicles_g2 (Some x) = Err e).
Proof.
  intros cm d H L rec inside. pose proof (vehicles_g2_codec cm d H) as C. cbv beta in C.
  set (f := fseq vehicle_g2_fields) in *. assert (FL : f_len f = 48%nat) by reflexivity.
  assert (N : (0 < f_len f)%nat) by lia.
  assert (FA : file_acc 2 f d = true <->
    forall i, inside i -> all_decimal [nth (rec i + 29) d 0; nth (rec i + 30) d 0]).
  { unfold file_acc. destruct (Nat.leb_spec 2 (length d)); [|lia]. cbn [andb].
    rewrite body_acc_at by auto. rewrite FL. split; intros A i I.
    - apply (vehicle_g2_fields_at d (rec i)); auto. apply A. unfold inside, rec in I. lia.
    - apply (vehicle_g2_fields_at d (rec i)); auto; [unfold rec; lia|]. apply A. unfold inside, rec. lia. }
  split.
  - rewrite <- FA. destruct (unmarshal_vehicles_g2 cm d) as [x|e|]; cbn [is_ok].
    + destruct C as [-> _]. tauto.
    + rewrite C. tauto.
    + contradiction.
  - intros x U. rewrite U in C. destruct C as (CA & CW & CP & _). rewrite CW.
    unfold unmarshal_vehicles_g2 in U. rewrite long_guard in U by lia.
    apply bind_ok in U as (rs & M & U). apply Ok_inj in U. subst x. cbn [vs2_newest vs2_records].
    split; auto. split.
    { rewrite (map_res_length _ _ _ M), chunks_count, skipn_length. reflexivity. }
    split.
    { intros i I. destruct (map_res_nth _ 48 2 d rs i ltac:(lia) M) as (r & E & U); [unfold inside, rec in I; lia|].
      exists r. split; auto. eapply vehicle_g2_at_ok; eauto. }
    split.
    + rewrite file_exact by (auto; apply good_seq, vehicle_g2_fields_good). rewrite FL.
      assert (A : forall i, inside i -> f_acc f (sub d (rec i) 48) = true).
      { intros i I. apply (vehicle_g2_fields_at d (rec i)); auto. apply FA; auto. }
      split; intros [M' Q]; split; auto; intros i I.
      * apply (vehicle_g2_fields_at d (rec i)); auto. apply Q. unfold inside, rec in I. lia.
      * apply (vehicle_g2_fields_at d (rec i)); auto; [unfold rec; lia|apply A|apply Q]; unfold inside, rec; lia.
    + intros (i & I & NC). apply (file_w_fails 2 f d i); auto.
      * rewrite FL. unfold inside, rec in I. lia.
      * apply (vehicle_g2_fields_at d (rec i)); auto.
Qed.

Definition vin_blank : bytes := repeat 32 17.

Example C40_g2_sample :
  exists x, unmarshal_vehicles_g2 (fun _ b => b) (vehicle_sample 0x12 1 ++ vin_blank) = Ok x /\
    append_vehicles_g2 (Some x) = Ok (vehicle_sample 0x12 1 ++ vin_blank).
Proof. eexists. split; [vm_compute; reflexivity|vm_compute; reflexivity]. Qed.

(** The full claim fails: an unknown nation makes the file unwritable, an unknown
    code page is replaced, and the zero bytes of an empty VIN turn into blanks. *)
Theorem C40_vehicles_refuted :
  (exists d x, bytes_ok d /\ unmarshal_vehicles (fun _ b => b) d = Ok x /\
     exists e, append_vehicles (Some x) = Err e) /\
  (exists d x d', bytes_ok d /\ unmarshal_vehicles (fun _ b => b) d = Ok x /\
     append_vehicles (Some x) = Ok d' /\ d' <> d) /\
  (exists d x d', bytes_ok d /\ unmarshal_vehicles_g2 (fun _ b => b) d = Ok x /\
     append_vehicles_g2 (Some x) = Ok d' /\ d' <> d).
Proof.
  split; [|split].
  - exists (vehicle_sample 0xEE 1). eexists. split; [repeat constructor; lia|].
    split; [vm_compute; reflexivity|]. eexists. vm_compute. reflexivity.
  - exists (vehicle_sample 0x12 99). do 2 eexists. split; [repeat constructor; lia|].
    split; [vm_compute; reflexivity|]. split; [vm_compute; reflexivity|]. vm_compute. discriminate.
  - exists (vehicle_sample 0x12 1 ++ repeat 0 17). do 2 eexists. split; [repeat constructor; lia|].
    split; [vm_compute; reflexivity|]. split; [vm_compute; reflexivity|]. vm_compute. discriminate.
Qed.

(** * C42: specific conditions *)

Definition condition_at (d : bytes) (o : nat) (r : spec_cond) : Prop :=
  sc_time r = (if be (sub d o 4) =? 0 then None else Some (mkTs (be (sub d o 4)) 0)) /\
  (forall v, In (v, Some (nth (o + 4) d 0)) specific_condition_type_table -> sc_type r = v) /\
  (~ a_code specific_condition_type_table (nth (o + 4) d 0) ->
     sc_type r = ENUM_UNRECOGNIZED /\ sc_unrecognized r = nth (o + 4) d 0).

Lemma condition_at_ok d o r :
  (o + 5 <= length d)%nat -> unmarshal_spec_cond (sub d o 5) = Ok r -> condition_at d o r.
Proof.
  intros L. unfold unmarshal_spec_cond. rewrite eq_guard by (apply sub_length; lia).
  rewrite !nth_sub by lia. rewrite !sub_sub by lia. rewrite Nat.add_0_r, unmarshal_time_at by lia. cbn [bind].
  unfold condition_at. intros E.
  destruct (unmarshal_enum specific_condition_type_table (nth (o + 4) d 0)) as [v|e|] eqn:U;
    [| |now apply unmarshal_enum_no_panic in U];
    try (apply Ok_inj in E; subst r); cbn [sc_time sc_type sc_unrecognized]; try discriminate; split; auto; split.
  - intros w I. apply (unmarshal_enum_iff specific_condition_type_table _ _ eq_refl) in I. congruence.
  - intros NC. rewrite (a_code_ok specific_condition_type_table _ eq_refl) in NC. rewrite U in NC. now elim NC.
  - intros w I. apply (unmarshal_enum_iff specific_condition_type_table _ _ eq_refl) in I. congruence.
  - auto.
Qed.

Theorem C42_conditions_round_trip :
  forall d, bytes_ok d ->
  exists x, unmarshal_conditions d = Ok x /\
    length (co_records x) = (length d / 5)%nat /\
    (forall i, (0 + (i + 1) * 5 <= length d)%nat ->
       exists r, nth_error (co_records x) i = Some r /\ condition_at d (0 + i * 5) r) /\
    append_conditions (Some x) = Ok (firstn (length d / 5 * 5) d) /\
    (append_conditions (Some x) = Ok d <-> (length d mod 5)%nat = 0%nat).
Proof.
  intros d H. pose proof (conditions_codec d H) as C.
  assert (U : unmarshal_conditions d =
              Ok (mkCond d (collect_ok unmarshal_spec_cond (chunks 5 d)))).
  { unfold unmarshal_conditions. destruct (Nat.eqb_spec (length d) 0) as [E|E]; auto.
    apply length_zero_iff_nil in E. subst. reflexivity. }
  rewrite U in *. destruct C as (_ & C & _).
  assert (MR := collect_ok_total _ append_spec_cond 5 (chunks 5 d) spec_cond_implements
                  (chunks_ok 5 d ltac:(lia) H) (chunks_each 5 d ltac:(lia))).
  eexists. split; [reflexivity|]. cbn [co_records].
  split. { rewrite (map_res_length _ _ _ MR), chunks_count. reflexivity. }
  split.
  { intros i Li. destruct (map_res_nth unmarshal_spec_cond 5 0 d _ i ltac:(lia) MR Li) as (r & E & V).
    exists r. split; auto. apply condition_at_ok; auto. lia. }
  rewrite C, file_w_id by lia. rewrite Nat.sub_0_r. cbn [Nat.add]. split; auto.
  pose proof (firstn_whole 0 5 d ltac:(lia) ltac:(lia)) as F. rewrite Nat.sub_0_r in F. cbn [Nat.add] in F.
  rewrite <- F. split; [apply Ok_inj|now intros ->].
Qed.

(** The second generation keeps every byte. *)
Theorem C42_conditions_g2_round_trip :
  forall d, bytes_ok d ->
  ((length d < 2)%nat -> exists e, unmarshal_conditions_g2 d = Err e) /\
  ((2 <= length d)%nat ->
   exists x, unmarshal_conditions_g2 d = Ok x /\
    co2_newest x = be (sub d 0 2) /\ length (co2_records x) = ((length d - 2) / 5)%nat /\
    (forall i, (2 + (i + 1) * 5 <= length d)%nat ->
       exists r, nth_error (co2_records x) i = Some r /\ condition_at d (2 + i * 5) r) /\
    append_conditions_g2 (Some x) = Ok d).
Proof.
  intros d H. split; intros L.
  - apply short_guard. lia.
  - pose proof (conditions_g2_codec d H) as C. unfold unmarshal_conditions_g2 in *. rewrite long_guard in * by lia.
    cbv beta in C. destruct C as (_ & C & _).
    assert (MR := collect_ok_total _ append_spec_cond 5 (chunks 5 (skipn 2 d)) spec_cond_implements
                    (chunks_ok 5 _ ltac:(lia) (bytes_ok_skipn 2 d H)) (chunks_each 5 _ ltac:(lia))).
    eexists. split; [reflexivity|]. cbn [co2_newest co2_records]. split; [reflexivity|].
    split. { rewrite (map_res_length _ _ _ MR), chunks_count, skipn_length. reflexivity. }
    split; [|exact C].
    intros i Li. destruct (map_res_nth unmarshal_spec_cond 5 2 d _ i ltac:(lia) MR Li) as (r & E & V).
    exists r. split; auto. apply condition_at_ok; auto. lia.
Qed.

Example C42_sample :
  let d := [0; 0; 0x5E; 0x0B; 0xE1; 0; 3; 0; 0; 0; 0; 0xEE; 7] in
  exists x, unmarshal_conditions_g2 d = Ok x /\ append_conditions_g2 (Some x) = Ok d /\ length (co2_records x) = 2%nat.
Proof. eexists. split; [vm_compute; reflexivity|]. split; vm_compute; reflexivity. Qed.

(** * C41: GNSS places and vehicle units *)

Definition gnss_record_at (d : bytes) (o : nat) (r : gnss_record) : Prop :=
  gr_time r = (if be (sub d o 4) =? 0 then None else Some (mkTs (be (sub d o 4)) 0)) /\
  gr_odometer r = be (sub d (o + 15) 3) /\
  exists g, gr_place r = Some g /\ gnss_at d (o + 4) g.

Lemma gnss_record_at_ok d o r :
  (o + 18 <= length d)%nat -> unmarshal_gnss_record (sub d o 18) = Ok r -> gnss_record_at d o r.
Proof.
  intros L. unfold unmarshal_gnss_record. rewrite eq_guard by (apply sub_length; lia).
  rewrite !sub_sub by lia. rewrite Nat.add_0_r, unmarshal_time_at by lia. cbn [bind].
  intros E. apply bind_ok in E as (g & Eg & E). apply bind_ok in E as (q & Eq & E). apply Ok_inj in E. subst r.
  apply gnss_at_ok in Eg; [|lia]. unfold gnss_record_at. cbn [gr_time gr_odometer gr_place].
  split; auto. split.
  - unfold unmarshal_odometer in Eq. rewrite eq_guard in Eq by (apply sub_length; lia). now apply Ok_inj in Eq.
  - exists g. auto.
Qed.

Theorem C41_gnss_places_partial :
  forall d, bytes_ok d ->
  (is_ok (unmarshal_gnss_places d) = true <->
     (2 <= length d)%nat /\ ((length d - 2) mod 18)%nat = 0%nat) /\
  forall x, unmarshal_gnss_places d = Ok x ->
    gps_newest x = be (sub d 0 2) /\ length (gps_records x) = ((length d - 2) / 18)%nat /\
    (forall i, (2 + (i + 1) * 18 <= length d)%nat ->
       exists r, nth_error (gps_records x) i = Some r /\ gnss_record_at d (2 + i * 18) r) /\
    (* written back, provided no odometer value exceeds 999999; otherwise an error *)
    ((forall i, (2 + (i + 1) * 18 <= length d)%nat -> be (sub d (2 + i * 18 + 15) 3) <= 999999) ->
       append_gnss_places (Some x) = Ok d) /\
    ((exists i, (2 + (i + 1) * 18 <= length d)%nat /\ 999999 < be (sub d (2 + i * 18 + 15) 3)) ->
       exists e, append_gnss_places (Some x) = Err e).
Proof.
  intros d H. pose proof (gnss_places_codec d H) as C. cbv beta in C.
  set (f := fseq gnss_fields) in *. assert (FL : f_len f = 18%nat) by reflexivity.
  assert (BA : body_acc f (skipn 2 d) = true).
  { apply body_acc_at; [lia|]. intros i _. reflexivity. }
  assert (W : forall o, (o + 18 <= length d)%nat -> f_w f (sub d o 18) =
              if be (sub d (o + 15) 3) <=? 999999 then Ok (sub d o 18) else fail).
  { intros o L. unfold f. rewrite fseq_w. unfold gnss_fields.
    cbn [w_at f_id f_odo f_w f_len Nat.add bind]. rewrite !sub_sub by lia. rewrite Nat.add_0_r.
    destruct (_ <=? 999999); cbn [bind]; auto. rewrite app_nil_r, sub_join by lia. reflexivity. }
  split.
  - unfold file_acc in C. rewrite BA, andb_true_r in C. unfold file_whole in C.
    destruct (unmarshal_gnss_places d) as [x|e|]; cbn [is_ok]; [|split; [discriminate|]|contradiction].
    + destruct C as (C & _). apply andb_prop in C as [C1 C2]. apply Nat.eqb_eq in C1. apply Nat.leb_le in C2. tauto.
    + intros [L M]. rewrite M in C. destruct (Nat.leb_spec 2 (length d)); [discriminate|lia].
  - intros x U. rewrite U in C. destruct C as (CA & CW & CP & _). apply andb_prop in CA as [CM CA].
    unfold file_whole in CM. apply Nat.eqb_eq in CM. rewrite CW.
    unfold unmarshal_gnss_places in U. apply bind_ok in U as (u & G1 & U).
    assert (L : (2 <= length d)%nat).
    { unfold file_acc in CA. apply andb_prop in CA as [CA _]. now apply Nat.leb_le in CA. }
    apply bind_ok in U as (u' & _ & U).
    destruct (scan_fixed_chunks 18 (skipn 2 d)) as (l & S & M). { pose proof max_eq. lia. }
    rewrite S in U. cbn [bind] in U. rewrite map_res_fst, M in U.
    apply bind_ok in U as (rs & MR & U). apply Ok_inj in U. subst x. cbn [gps_newest gps_records].
    split; auto. split. { rewrite (map_res_length _ _ _ MR), chunks_count, skipn_length. reflexivity. }
    split.
    { intros i Li. destruct (map_res_nth _ 18 2 d rs i ltac:(lia) MR Li) as (r & E & V).
      exists r. split; auto. apply gnss_record_at_ok; auto. lia. }
    split.
    + intros O. apply file_exact; auto using good_gnss; [lia|]. rewrite FL. split; auto.
      intros i Li. rewrite W by lia. specialize (O i Li). destruct (Z.leb_spec (be (sub d (2 + i * 18 + 15) 3)) 999999); auto; lia.
    + intros (i & Li & O). apply (file_w_fails 2 f d i); auto; rewrite FL; try lia.
      rewrite W by lia. destruct (Z.leb_spec (be (sub d (2 + i * 18 + 15) 3)) 999999); auto; lia.
Qed.

Definition gnss_sample (odo : Z) : bytes :=
  [0; 0] ++ [0x5E; 0x0B; 0xE1; 0] ++ [0x5E; 0x0B; 0xE1; 0; 9; 0x00; 0xEA; 0xC4; 0xFF; 0x15; 0xA0] ++ to_be 3 odo.

Example C41_gnss_sample :
  exists x, unmarshal_gnss_places (gnss_sample 999999) = Ok x /\
    append_gnss_places (Some x) = Ok (gnss_sample 999999).
Proof. eexists. split; [vm_compute; reflexivity|vm_compute; reflexivity]. Qed.

Definition unit_at (d : bytes) (o : nat) (r : unit_record) : Prop :=
  ur_time r = (if be (sub d o 4) =? 0 then None else Some (mkTs (be (sub d o 4)) 0)) /\
  ur_manufacturer r = nth (o + 4) d 0 /\ ur_device r = sub d (o + 5) 1 /\ ur_version r = sub d (o + 6) 4.

Lemma unit_at_ok d o r :
  (o + 10 <= length d)%nat -> unmarshal_unit_record (sub d o 10, sub d o 10) = Ok r -> unit_at d o r.
Proof.
  intros L. unfold unmarshal_unit_record. cbn [fst snd]. rewrite eq_guard by (apply sub_length; lia).
  rewrite !nth_sub by lia. rewrite !sub_sub by lia. rewrite Nat.add_0_r, unmarshal_time_at by lia. cbn [bind].
  intros E. apply Ok_inj in E. subst r. unfold unit_at. auto.
Qed.

Theorem C41_units_partial :
  forall d, bytes_ok d ->
  (is_ok (unmarshal_units_used d) = true <->
     (2 <= length d)%nat /\ ((length d - 2) mod 10)%nat = 0%nat) /\
  forall x, unmarshal_units_used d = Ok x ->
    uu_newest x = be (sub d 0 2) /\ length (uu_records x) = ((length d - 2) / 10)%nat /\
    (* up to 409 records, that is as long as the file fits the scanner's first buffer *)
    (Z.of_nat (length d) <= 4098 ->
       (forall i, (2 + (i + 1) * 10 <= length d)%nat ->
          exists r, nth_error (uu_records x) i = Some r /\ unit_at d (2 + i * 10) r) /\
       append_units_used (Some x) = Ok d).
Proof.
  intros d H. pose proof (units_used_codec d H) as C. cbv beta in C. split.
  - unfold file_whole in C.
    destruct (unmarshal_units_used d) as [x|e|]; cbn [is_ok]; [|split; [discriminate|]|contradiction].
    + destruct C as (C & _). apply andb_prop in C as [C1 C2]. apply Nat.eqb_eq in C2. apply Nat.leb_le in C1. tauto.
    + intros [L M]. rewrite M in C. destruct (Nat.leb_spec 2 (length d)); [discriminate|lia].
  - intros x U. rewrite U in C. destruct C as (CA & _ & CW). apply andb_prop in CA as [CL CA].
    unfold file_whole in CA. apply Nat.eqb_eq in CA. apply Nat.leb_le in CL.
    unfold unmarshal_units_used in U. apply bind_ok in U as (u & G1 & U). apply bind_ok in U as (u' & _ & U).
    destruct (scan_fixed_chunks 10 (skipn 2 d)) as (l & S & M). { pose proof max_eq. lia. }
    rewrite S in U. cbn [bind] in U. apply bind_ok in U as (rs & MR & U). apply Ok_inj in U. subst x.
    cbn [uu_newest uu_records]. split; auto. split.
    { rewrite (map_res_length _ _ _ MR). rewrite <- (map_length fst), M, chunks_count, skipn_length. reflexivity. }
    intros B. split; [|now apply CW].
    rewrite scan_safe_unchanged in S; try lia.
    + apply Ok_inj in S. subst l. rewrite map_res_pairs in MR.
      intros i Li. destruct (map_res_nth _ 10 2 d rs i ltac:(lia) MR Li) as (r & E & V).
      exists r. split; auto. apply unit_at_ok; auto. lia.
    + split; [rewrite skipn_length; lia|]. left. rewrite skipn_length. exact CA.
Qed.

Example C41_units_sample :
  let d := [0; 1] ++ [0x5E; 0x0B; 0xE1; 0; 0x21; 7; 1; 2; 3; 4] ++ [0; 0; 0; 0; 0; 0; 0; 0; 0; 0] in
  exists x, unmarshal_units_used d = Ok x /\ append_units_used (Some x) = Ok d.
Proof. eexists. split; [vm_compute; reflexivity|vm_compute; reflexivity]. Qed.

(** With more records the scanner reuses its buffer: 410 records lose the first one. *)
Definition unit_rec (i : Z) : bytes := [0x5E; 0x0B; 0xE1; 0; 0x21; i mod 256; 1; 2; 3; 4].
Definition units_many (n : nat) : bytes := [0; 1] ++ flat_map (fun i => unit_rec (Z.of_nat i)) (seq 0 n).

Lemma unit_rec_ok n : bytes_ok (units_many n).
Proof.
  unfold units_many. apply bytes_ok_app. split; [repeat constructor; lia|].
  apply Forall_flat_map, Forall_forall. intros i _. unfold unit_rec.
  pose proof (Z.mod_pos_bound (Z.of_nat i) 256 ltac:(lia)).
  repeat (apply Forall_cons; [unfold byte_ok; lia|]). constructor.
Qed.

(** Decode, encode, and look at some bytes. *)
Definition rewritten {X} (un : bytes -> res X) (ap : X -> res bytes) (d : bytes) (i n : nat) : option (bytes * nat) :=
  match un d with
  | Ok x => match ap x with Ok d' => Some (sub d' i n, length d') | _ => None end
  | _ => None
  end.

Lemma rewritten_differs {X} (un : bytes -> res X) ap d i n b :
  rewritten un ap d i n = Some (b, length d) -> b <> sub d i n ->
  exists x d', un d = Ok x /\ ap x = Ok d' /\ length d' = length d /\ d' <> d.
Proof.
  unfold rewritten. destruct (un d) as [x|e|]; try discriminate. destruct (ap x) as [d'|e|] eqn:A; try discriminate.
  intros E N. injection E as E1 E2. exists x, d'. repeat split; auto. intros ->. now elim N.
Qed.

Theorem C41_lists_refuted :
  (* a vehicle-units file of 410 records comes back altered *)
  (exists d x d', bytes_ok d /\ unmarshal_units_used d = Ok x /\
     append_units_used (Some x) = Ok d' /\ length d' = length d /\ d' <> d) /\
  (* a GNSS file with an unknown odometer value (0xFFFFFF) cannot be written *)
  (exists d x e, bytes_ok d /\ unmarshal_gnss_places d = Ok x /\ append_gnss_places (Some x) = Err e).
Proof.
  split.
  - destruct (rewritten_differs unmarshal_units_used (fun x => append_units_used (Some x)) (units_many 410) 7 1 [153])
      as (x & d' & A & B & C & D).
    + vm_compute. reflexivity.
    + vm_compute. discriminate.
    + exists (units_many 410), x, d'. auto using unit_rec_ok.
  - exists (gnss_sample 0xFFFFFF). do 2 eexists. split; [repeat constructor; lia|].
    split; [vm_compute; reflexivity|]. vm_compute. reflexivity.
Qed.

(** * C37 and C38: events and faults *)

Definition event_at (d : bytes) (o : nat) (r : event) : Prop :=
  if be (sub d (o + 1) 4) =? 0
  then ev_valid r = false
  else
    ev_valid r = true /\ In (ev_type r, Some (nth o d 0)) event_fault_type_table /\
    ev_begin r = Some (mkTs (be (sub d (o + 1) 4)) 0) /\
    ev_end r = (if be (sub d (o + 5) 4) =? 0 then None else Some (mkTs (be (sub d (o + 5) 4)) 0)) /\
    exists v, ev_vehicle r = Some v /\
      forall n, In (n, Some (nth (o + 9) d 0)) nation_numeric_table -> vr_nation v = n.

(** The parts of a decoded record that refer to bytes of the file. *)
Definition event_bytes_at (d : bytes) (o : nat) (r : event) : Prop :=
  if be (sub d (o + 1) 4) =? 0
  then ev_raw r = sub d o 24
  else exists v s, ev_vehicle r = Some v /\ vr_number v = Some s /\ sv_raw s = Some (sub d (o + 10) 14).

Lemma event_at_ok cm d o fin r :
  (o + 24 <= length d)%nat -> unmarshal_event cm (sub d o 24, fin) = Ok r -> event_at d o r.
Proof.
  intros L. unfold unmarshal_event, event_at. cbn [fst snd]. rewrite !sub_sub by lia.
  destruct (be (sub d (o + 1) 4) =? 0) eqn:Z0.
  - intros E. apply Ok_inj in E. subst r. reflexivity.
  - rewrite long_guard by (rewrite sub_length; lia). rewrite !nth_sub by lia. rewrite Nat.add_0_r.
    rewrite !unmarshal_time_at by lia. rewrite Z0.
    intros E. apply bind_ok in E as (t & Et & E). cbn [bind] in E. apply bind_ok in E as (v & Ev & E).
    apply Ok_inj in E. subst r. cbn [ev_valid ev_type ev_begin ev_end ev_vehicle].
    split; auto. split; [now apply unmarshal_enum_sound|]. split; auto. split; auto.
    eexists. split; [reflexivity|]. intros n I. unfold alias_vreg. cbn [vr_nation].
    eapply vreg_nation_at; eauto. rewrite nth_sub by lia. now rewrite Nat.add_0_r.
Qed.

Lemma vreg_number_raw cm d v : unmarshal_vreg cm d = Ok v -> exists s, vr_number v = Some s.
Proof.
  intros U. unfold unmarshal_vreg in U. inv_bind U. inv_bind U. apply Ok_inj in U. subst v. eexists. reflexivity.
Qed.

Lemma event_bytes_at_ok cm d o r :
  (o + 24 <= length d)%nat -> unmarshal_event cm (sub d o 24, sub d o 24) = Ok r -> event_bytes_at d o r.
Proof.
  intros L. unfold unmarshal_event, event_bytes_at. cbn [fst snd]. rewrite !sub_sub by lia.
  destruct (be (sub d (o + 1) 4) =? 0) eqn:Z0.
  - intros E. apply Ok_inj in E. subst r. reflexivity.
  - intros E. apply bind_ok in E as (u & _ & E). apply bind_ok in E as (t & Et & E). apply bind_ok in E as (b & _ & E).
    apply bind_ok in E as (e & _ & E). apply bind_ok in E as (v & Ev & E).
    apply Ok_inj in E. subst r. destruct (vreg_number_raw _ _ _ Ev) as [s Es].
    eexists _, _. split; [reflexivity|]. unfold alias_vreg. rewrite Es. cbn [vr_number option_map].
    split; reflexivity.
Qed.

Lemma map_res_pairs_nth {X} (un : bytes * bytes -> res X) n d l rs i :
  (0 < n)%nat -> map fst l = chunks n d -> map_res un l = Ok rs -> ((i + 1) * n <= length d)%nat ->
  exists r fin, nth_error rs i = Some r /\ un (sub d (i * n) n, fin) = Ok r.
Proof.
  intros N M E L. apply map_res_ok in E.
  assert (K : (i < length d / n)%nat).
  { pose proof (Nat.div_le_lower_bound (length d) n (i + 1) ltac:(lia)). nia. }
  assert (C : nth_error (map fst l) i = Some (sub d (i * n) n)).
  { rewrite M. unfold chunks. rewrite nth_error_map.
    replace (nth_error (seq 0 (length d / n)) i) with (Some i); auto.
    symmetry. rewrite nth_error_nth' with (d := 0%nat) by (rewrite seq_length; lia).
    rewrite seq_nth by lia. reflexivity. }
  clear M L K. revert C. generalize (sub d (i * n) n). revert i.
  induction E as [|c r cs rs Ec E IH]; intros [|i] b C; try discriminate.
  - cbn in C. injection C as <-. destruct c as [a fin]. exists r, fin. auto.
  - apply (IH i b C).
Qed.

(** For files of every size: which are accepted, and what is listed. *)
Theorem C37_events_listed :
  forall cm d, bytes_ok d ->
  let rec i := (i * 24)%nat in
  let inside i := (rec i + 24 <= length d)%nat in
  (is_ok (unmarshal_events cm d) = true <->
     forall i, inside i -> be (sub d (rec i + 1) 4) = 0 \/ a_code event_fault_type_table (nth (rec i) d 0)) /\
  unmarshal_events cm d <> Panic /\
  forall rs, unmarshal_events cm d = Ok rs ->
    length rs = (length d / 24)%nat /\
    (forall i, inside i -> exists r, nth_error rs i = Some r /\ event_at d (rec i) r) /\
    append_events (Some rs) <> Panic.
Proof.
  intros cm d H rec inside. pose proof (events_codec cm d H) as C. cbv beta in C.
  assert (FA : file_acc 0 f_event d = true <->
    forall i, inside i -> be (sub d (rec i + 1) 4) = 0 \/ a_code event_fault_type_table (nth (rec i) d 0)).
  { unfold file_acc. cbn [Nat.leb andb]. rewrite body_acc_at by (cbn; lia). cbn [f_event f_len f_acc].
    assert (X : forall i, inside i ->
      ((if be (sub (sub d (0 + i * 24) 24) 1 4) =? 0 then true else acc_at event_fields (sub d (0 + i * 24) 24) 0) = true
       <-> be (sub d (rec i + 1) 4) = 0 \/ a_code event_fault_type_table (nth (rec i) d 0))).
    { intros i I. unfold rec, inside in *. cbn [Nat.add] in *. rewrite !sub_sub by lia.
      destruct (Z.eqb_spec (be (sub d (i * 24 + 1) 4)) 0) as [E|E]; [tauto|].
      unfold event_fields. cbn [acc_at f_enum f_if f_id f_acc f_len Nat.add andb].
      change (f_len f_vreg) with 15%nat. rewrite vreg_acc. cbn [andb]. rewrite andb_true_r.
      rewrite !nth_sub by lia. rewrite !Nat.add_0_r. rewrite (a_code_ok event_fault_type_table) by reflexivity. tauto. }
    split; intros A i I.
    - apply X; auto. apply A. unfold inside, rec in I. lia.
    - apply X; [unfold inside, rec; lia|]. apply A. unfold inside, rec. lia. }
  split; [|split].
  - rewrite <- FA. destruct (unmarshal_events cm d) as [x|e|]; cbn [is_ok].
    + destruct C as [-> _]. tauto.
    + rewrite C. tauto.
    + contradiction.
  - destruct (unmarshal_events cm d); auto; discriminate.
  - intros rs U. rewrite U in C. destruct C as (_ & CP & _).
    unfold unmarshal_events in U.
    destruct (scan_fixed_chunks 24 d) as (l & S & M). { pose proof max_eq. lia. }
    rewrite S in U. cbn [bind] in U. split.
    { rewrite (map_res_length _ _ _ U). rewrite <- (map_length fst), M, chunks_count. reflexivity. }
    split; auto.
    intros i I. unfold inside, rec in *.
    destruct (map_res_pairs_nth _ 24 d l rs i ltac:(lia) M U) as (r & fin & E & V); [lia|].
    exists r. split; auto. eapply event_at_ok; eauto.
Qed.

Lemma event_exact d o : bytes_ok d -> (o + 24 <= length d)%nat -> f_acc f_event (sub d o 24) = true ->
  (f_w f_event (sub d o 24) = Ok (sub d o 24) <->
   be (sub d (o + 1) 4) = 0 \/
   (a_code nation_numeric_table (nth (o + 9) d 0) /\ legal_code_page (nth (o + 10) d 0))) /\
  (be (sub d (o + 1) 4) <> 0 -> ~ a_code nation_numeric_table (nth (o + 9) d 0) ->
     f_w f_event (sub d o 24) = fail).
Proof.
  intros H L A. cbn [f_event f_acc f_w] in *. rewrite !sub_sub in * by lia.
  destruct (Z.eqb_spec (be (sub d (o + 1) 4)) 0) as [E|E].
  - split; [tauto|congruence].
  - split.
    + rewrite (w_at_exact event_fields (sub d o 24)); auto using event_fields_good, bytes_ok_sub.
      * unfold event_fields. cbn [exact_at f_enum f_id f_if f_w f_len Nat.add]. change (f_len f_vreg) with 15%nat.
        rewrite exact_vreg by (rewrite ?sub_length by lia; auto using bytes_ok_sub; lia).
        cbn [Nat.add]. rewrite !nth_sub by lia. rewrite legal_known. rewrite <- nation_a_code. tauto.
      * change (length (sub d o 24) = 24%nat). apply sub_length. lia.
    + intros _ N. unfold event_fields. cbn [w_at f_enum f_id f_if f_w f_len Nat.add]. change (f_len f_vreg) with 15%nat.
      cbn [bind]. rewrite !sub_sub by lia. rewrite f_vreg_unknown; auto.
      * rewrite sub_length; lia.
      * rewrite nth_sub by lia. now rewrite Nat.add_0_r.
Qed.

(** Files that do not make the scanner reuse its buffer: at most 170 complete
    records, or 85 if the file ends with an incomplete one. *)
Definition buffer_kept (d : bytes) : Prop :=
  Z.of_nat (length d) <= 4096 /\
  ((length d mod 24)%nat = 0%nat \/ (Z.of_nat (length d) < 4096 /\ (length d / 24 <= 85)%nat)).

Lemma buffer_kept_safe d : buffer_kept d -> scan_safe 24 d.
Proof. intros [A B]. split; auto. destruct B as [B|[B C]]; auto. right. split; auto. lia. Qed.

Theorem C37_events_partial :
  forall cm d, bytes_ok d -> buffer_kept d ->
  let rec i := (i * 24)%nat in
  let inside i := (rec i + 24 <= length d)%nat in
  forall rs, unmarshal_events cm d = Ok rs ->
    (append_events (Some rs) = Ok d <->
       (length d mod 24)%nat = 0%nat /\
       forall i, inside i -> be (sub d (rec i + 1) 4) = 0 \/
         (a_code nation_numeric_table (nth (rec i + 9) d 0) /\ legal_code_page (nth (rec i + 10) d 0))) /\
    ((exists i, inside i /\ be (sub d (rec i + 1) 4) <> 0 /\ ~ a_code nation_numeric_table (nth (rec i + 9) d 0)) ->
       exists e, append_events (Some rs) = Err e).
Proof.
  intros cm d H B rec inside rs U. pose proof (events_codec cm d H) as C. cbv beta in C. rewrite U in C.
  destruct C as (CA & CP & CW). destruct (CW (buffer_kept_safe d B)) as [CE _]. rewrite CE in *.
  assert (A : forall i, inside i -> f_acc f_event (sub d (0 + i * 24) 24) = true).
  { unfold file_acc in CA. cbn [Nat.leb andb] in CA. rewrite body_acc_at in CA by (cbn; lia).
    intros i I. apply (CA i). unfold inside, rec in I. cbn [f_event f_len]. lia. }
  split.
  - rewrite file_exact by (auto using good_event; cbn; lia). rewrite Nat.sub_0_r.
    cbn [f_event f_len]. change (F 24 _ _) with f_event.
    split; intros [M Q]; split; auto; intros i I.
    + apply (event_exact d (rec i)); auto. { apply (A i I). } apply (Q i). unfold inside, rec in I. lia.
    + apply (event_exact d (0 + i * 24)); auto; [lia|apply A|apply Q]; unfold inside, rec; lia.
  - intros (i & I & Z0 & N). apply (file_w_fails 0 f_event d i); auto.
    + cbn. lia.
    + unfold inside, rec in I. cbn [f_event f_len]. lia.
    + apply (event_exact d (rec i)); auto. apply (A i I).
Qed.

Theorem C38_stable_partial :
  (forall cm d, bytes_ok d -> buffer_kept d -> forall rs, unmarshal_events cm d = Ok rs ->
     forall i, (i * 24 + 24 <= length d)%nat ->
     exists r, nth_error rs i = Some r /\ event_at d (i * 24) r /\ event_bytes_at d (i * 24) r) /\
  (forall d, bytes_ok d -> Z.of_nat (length d) <= 4098 -> forall x, unmarshal_units_used d = Ok x ->
     forall i, (2 + i * 10 + 10 <= length d)%nat ->
     exists r, nth_error (uu_records x) i = Some r /\ unit_at d (2 + i * 10) r).
Proof.
  split.
  - intros cm d H B rs U i I. unfold unmarshal_events in U.
    rewrite scan_safe_unchanged in U by (auto using buffer_kept_safe; lia). cbn [bind] in U.
    rewrite map_res_pairs in U.
    destruct (map_res_nth _ 24 0 d rs i ltac:(lia) U) as (r & E & V); [lia|].
    exists r. split; auto. split; [eapply event_at_ok|eapply event_bytes_at_ok]; eauto.
  - intros d H B x U i I. destruct (C41_units_partial d H) as [_ Q].
    destruct (Q x U) as (_ & _ & R). destruct (R B) as [R1 _]; apply (R1 i). lia.
Qed.

(** One unused record followed by 85 used ones and a single stray byte: while the
    file is read, the first record changes. *)
Definition unused_event : bytes := repeat 0 24.
Definition used_event : bytes :=
  [1; 0x5E; 0x0B; 0xE1; 0; 0x5E; 0x0C; 0; 0; 0x12; 1; 65; 66; 67; 45; 49; 50; 51; 32; 32; 32; 32; 32; 32].
Definition events_many (n : nat) (tail : bytes) : bytes :=
  unused_event ++ concat (repeat used_event n) ++ tail.

Lemma events_many_ok n tail : bytes_ok tail -> bytes_ok (events_many n tail).
Proof.
  intros T. unfold events_many. apply bytes_ok_app. split; [apply bytes_ok_repeat; unfold byte_ok; lia|].
  apply bytes_ok_app. split; auto. apply Forall_concat, Forall_forall. intros c I. apply repeat_spec in I. subst.
  unfold used_event. repeat constructor; lia.
Qed.

Example C37_sample :
  exists rs, unmarshal_events (fun _ b => b) (events_many 2 []) = Ok rs /\
    append_events (Some rs) = Ok (events_many 2 []).
Proof. eexists. split; [vm_compute; reflexivity|vm_compute; reflexivity]. Qed.

Lemma first_changed d rs b : unmarshal_events (fun _ b => b) d = Ok rs ->
  be (sub d 1 4) = 0 -> nth_error rs 0 = Some (mkEv false b 0 None None None) -> b <> sub d 0 24 ->
  exists r, nth_error rs 0 = Some r /\ ~ event_bytes_at d 0 r.
Proof.
  intros U Z0 E N. eexists. split; [exact E|]. unfold event_bytes_at. cbn [Nat.add ev_raw]. rewrite Z0. exact N.
Qed.

Definition first_raw (d : bytes) : bytes :=
  match unmarshal_events (fun _ b => b) d with
  | Ok (r :: _) => if ev_valid r then [] else ev_raw r
  | _ => []
  end.

Lemma first_raw_changed d b : first_raw d = b -> b <> [] -> b <> sub d 0 24 -> be (sub d 1 4) = 0 ->
  exists rs r, unmarshal_events (fun _ b => b) d = Ok rs /\ nth_error rs 0 = Some r /\ ~ event_bytes_at d 0 r.
Proof.
  unfold first_raw. intros E N D Z0. destruct (unmarshal_events _ d) as [[|r rs]|e|]; try congruence.
  exists (r :: rs), r. split; auto. split; auto. unfold event_bytes_at. cbn [Nat.add]. rewrite Z0. change (0 =? 0) with true. cbv iota.
  destruct (ev_valid r); congruence.
Qed.

(** The unrestricted claims fail for files beyond the buffer, and for shorter files
    whose length is not a multiple of the record size. *)
Theorem C38_stable_refuted :
  (exists d rs r, bytes_ok d /\ (length d = 2089)%nat /\ unmarshal_events (fun _ b => b) d = Ok rs /\
     nth_error rs 0 = Some r /\ ~ event_bytes_at d 0 r) /\
  (exists d rs r, bytes_ok d /\ (length d mod 24 = 0)%nat /\ unmarshal_events (fun _ b => b) d = Ok rs /\
     nth_error rs 0 = Some r /\ ~ event_bytes_at d 0 r).
Proof.
  split.
  - destruct (first_raw_changed (events_many 86 [0x77]) (0x77 :: repeat 0 23)) as (rs & r & A & B & C).
    + vm_compute. reflexivity.
    + discriminate.
    + vm_compute. discriminate.
    + reflexivity.
    + exists (events_many 86 [0x77]), rs, r. split; [apply events_many_ok; repeat constructor; lia|].
      split; [reflexivity|auto].
  - destruct (first_raw_changed (events_many 170 []) (first_raw (events_many 170 []))) as (rs & r & A & B & C).
    + reflexivity.
    + vm_compute. discriminate.
    + vm_compute. discriminate.
    + reflexivity.
    + exists (events_many 170 []), rs, r. split; [apply events_many_ok; constructor|].
      split; [reflexivity|auto].
Qed.

Theorem C37_events_refuted :
  (* a valid event of an unknown nation cannot be written back *)
  (exists d rs e, bytes_ok d /\ length d = 24%nat /\ unmarshal_events (fun _ b => b) d = Ok rs /\
     append_events (Some rs) = Err e) /\
  (* 171 records: the unused first record is written back altered *)
  (exists d rs d', bytes_ok d /\ (length d mod 24 = 0)%nat /\ unmarshal_events (fun _ b => b) d = Ok rs /\
     append_events (Some rs) = Ok d' /\ length d' = length d /\ d' <> d).
Proof.
  split.
  - exists (firstn 9 used_event ++ [0xEE] ++ skipn 10 used_event). do 2 eexists.
    split; [repeat constructor; lia|]. split; [reflexivity|].
    split; [vm_compute; reflexivity|]. vm_compute. reflexivity.
  - destruct (rewritten_differs (unmarshal_events (fun _ b => b)) (fun x => append_events (Some x))
                (events_many 170 []) 0 1 [1]) as (x & d' & A & B & C & D).
    + vm_compute. reflexivity.
    + vm_compute. discriminate.
    + exists (events_many 170 []), x, d'. split; [apply events_many_ok; constructor|].
      split; [reflexivity|]. auto.
Qed.

(** * C27: positions inside GNSS records *)

Theorem C27_gnss_record_round_trip :
  (forall d, bytes_ok d -> length d = 11%nat ->
     exists g, unmarshal_gnss_place d = Ok g /\ append_gnss_place (Some g) = Ok d) /\
  (forall d, bytes_ok d -> length d = 12%nat ->
     exists g, unmarshal_gnss_place_auth d = Ok g /\ append_gnss_place_auth (Some g) = Ok d).
Proof.
  split; intros d H L.
  - exact (implements_id_ok _ _ 11 d gnss_place_implements H L).
  - exact (implements_id_ok _ _ 12 d gnss_place_auth_implements H L).
Qed.

Print Assumptions C37_events_partial.
Print Assumptions C38_stable_refuted.
Print Assumptions C40_vehicles_g2_partial.
Print Assumptions C41_lists_refuted.
