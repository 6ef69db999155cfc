(** Properties C34, C35 and C43: card files of fixed size. *)

From Verif Require Import Base Enums DDScalar Utf8 DDString DDRecord RawTypes Infer CardBasic
  P_Scalar Props_Scalar P_Utf8 P_String Props_String Field P_Basic.

(** The byte is the protocol code of some member of the enumeration. *)
Definition a_code (T : enum_table) (b : Z) : Prop := exists v, In (v, Some b) T.

Lemma a_code_ok T b : enum_wfb T = true -> (a_code T b <-> is_ok (unmarshal_enum T b) = true).
Proof.
  intros W. split.
  - intros [v I]. apply (unmarshal_enum_iff T b v W) in I. rewrite I. reflexivity.
  - destruct (unmarshal_enum T b) as [v| |] eqn:E; try discriminate. intros _.
    exists v. now apply unmarshal_enum_sound.
Qed.

Lemma nation_a_code b : nation_known b <-> a_code nation_numeric_table b.
Proof. reflexivity. Qed.

(** * C35: IC and ICC *)

Theorem C35_ic_round_trip :
  forall d, bytes_ok d ->
  (length d = 8%nat -> exists x, unmarshal_ic d = Ok x /\ append_ic (Some x) = Ok d) /\
  ((length d < 8)%nat -> exists e, unmarshal_ic d = Err e).
Proof.
  intros d H. pose proof (ic_codec d H) as C. cbv beta in C. split; intros L.
  - destruct (unmarshal_ic d) as [x|e|] eqn:E; [|rewrite L in C; discriminate|contradiction].
    exists x. split; auto. destruct C as (_ & -> & _).
    apply (w_at_exact ic_fields d); [goods|auto|auto|reflexivity|]. cbn. auto.
  - unfold unmarshal_ic. apply short_guard; auto.
Qed.
Print Assumptions C35_ic_round_trip.

(** A 25-byte ICC file with known clock-stop and equipment codes is always
    accepted; it comes back unchanged exactly when its manufacturing month and
    year are decimal. *)
Theorem C35_icc_partial :
  forall d, bytes_ok d -> length d = 25%nat ->
  (is_ok (unmarshal_icc d) = true <->
     a_code clock_stop_mode_table (nth 0 d 0) /\ a_code equipment_type_table (nth 7 d 0)) /\
  forall x, unmarshal_icc d = Ok x ->
    (append_icc (Some x) = Ok d <-> all_decimal [nth 5 d 0; nth 6 d 0]).
Proof.
  intros d H L. pose proof (icc_codec d H) as C. cbv beta in C.
  assert (A : acc_at icc_fields d 0 = true <->
    a_code clock_stop_mode_table (nth 0 d 0) /\ a_code equipment_type_table (nth 7 d 0)).
  { rewrite !a_code_ok by reflexivity. unfold icc_fields.
    cbn [acc_at f_enum f_if f_id f_month_year f_fun f_len f_acc Nat.add andb].
    rewrite !nth_sub by lia. cbn [Nat.add]. rewrite !andb_true_r, andb_true_iff. tauto. }
  rewrite <- A. rewrite L in C. change (flen icc_fields <=? 25)%nat with true in C. cbn [andb] in C.
  assert (S : sub d 5 2 = [nth 5 d 0; nth 6 d 0]).
  { change (sub d 5 (1 + 1) = [nth 5 d 0; nth 6 d 0]).
    rewrite <- (sub_join d 5 1 1 6) by reflexivity. rewrite !sub_1 by lia. reflexivity. }
  destruct (unmarshal_icc d) as [x|e|]; [|rewrite C; split; [split; discriminate|discriminate]|contradiction].
  destruct C as (C1 & C2 & _). rewrite C1. split; [tauto|].
  intros x' E. apply Ok_inj in E. subst x'. rewrite C2.
  rewrite (w_at_exact icc_fields d) by (auto; goods). unfold icc_fields.
  cbn [exact_at f_enum f_if f_id f_len f_w Nat.add].
  change (f_len f_month_year) with 2%nat. rewrite exact_month_year by (auto; lia). rewrite S. tauto.
Qed.
Print Assumptions C35_icc_partial.

Definition icc_sample : bytes :=
  [1; 0;0;0x12;0x34; 0x11;0x24; 1; 0x40; 101;49;45;48;48;48;48;49; 7; 70;73;49;50;9; 1;2].

Theorem C35_icc_refuted :
  (exists d x, bytes_ok d /\ length d = 25%nat /\ unmarshal_icc d = Ok x /\ append_icc (Some x) <> Ok d) /\
  (exists d x, bytes_ok d /\ unmarshal_icc d = Ok x /\ append_icc (Some x) <> Ok d /\
     append_icc (Some x) = Ok (firstn 25 d)).
Proof.
  split.
  - exists (firstn 5 icc_sample ++ [0x1A] ++ skipn 6 icc_sample). eexists.
    split; [repeat constructor; vm_compute; intuition discriminate|].
    split; [reflexivity|]. split; [vm_compute; reflexivity|]. vm_compute. discriminate.
  - exists (icc_sample ++ [5]). eexists.
    split; [repeat constructor; vm_compute; intuition discriminate|].
    split; [vm_compute; reflexivity|]. split; vm_compute; [discriminate|reflexivity].
Qed.
Print Assumptions C35_icc_refuted.

Example C35_example :
  bytes_ok icc_sample /\ length icc_sample = 25%nat /\ all_decimal [nth 5 icc_sample 0; nth 6 icc_sample 0] /\
  exists x, unmarshal_icc icc_sample = Ok x /\ append_icc (Some x) = Ok icc_sample.
Proof.
  split; [repeat constructor; vm_compute; intuition discriminate|]. split; [reflexivity|].
  split; [repeat constructor; vm_compute; discriminate|]. eexists. split; vm_compute; reflexivity.
Qed.

(** * C34: application identification *)

Definition u16_at (d : bytes) (i : nat) : Z := nth i d 0 * 256 + nth (i + 1) d 0.

Lemma be_sub2 d i : (i + 2 <= length d)%nat -> be (sub d i 2) = u16_at d i.
Proof.
  intros L. assert (S : sub d i 2 = [nth i d 0; nth (i + 1) d 0]).
  { change (sub d i (1 + 1) = [nth i d 0; nth (i + 1) d 0]).
    rewrite <- (sub_join d i 1 1 (i + 1)) by reflexivity. rewrite !sub_1 by lia. reflexivity. }
  rewrite S. unfold be, u16_at. cbn. lia.
Qed.

Theorem C34_app_id_partial :
  forall d, bytes_ok d ->
  (is_ok (unmarshal_app_id d) = true <-> length d = 10%nat /\ a_code equipment_type_table (nth 0 d 0)) /\
  forall x, unmarshal_app_id d = Ok x ->
    (append_app_id (Some x) = Ok d <-> nth 1 d 0 mod 16 <= 9 /\ nth 2 d 0 mod 16 <= 9) /\
    exists a, ai_driver x = Some a /\
      ad_events a = Some (nth 3 d 0) /\ ad_faults a = Some (nth 4 d 0) /\
      ad_activity_length a = Some (u16_at d 5) /\ ad_vehicles a = Some (u16_at d 7) /\
      ad_places a = Some (nth 9 d 0).
Proof.
  intros d H. pose proof (app_id_codec d H) as C. cbv beta in C. change (flen app_id_fields) with 10%nat in C.
  destruct (Nat.eqb_spec (length d) 10) as [L|L]; cbn [andb] in C.
  2:{ destruct (unmarshal_app_id d) as [x|e|]; [destruct C; discriminate| |contradiction].
      split; [split; [discriminate|intros []; contradiction]|discriminate]. }
  assert (A : acc_at app_id_fields d 0 = true <-> a_code equipment_type_table (nth 0 d 0)).
  { rewrite !a_code_ok by reflexivity. unfold app_id_fields.
    cbn [acc_at f_enum f_if f_id f_csv f_fun f_len f_acc Nat.add andb].
    rewrite !nth_sub by lia. cbn [Nat.add]. rewrite !andb_true_r. tauto. }
  rewrite <- A.
  destruct (unmarshal_app_id d) as [x|e|] eqn:U; [|rewrite C; split; [split; [discriminate|intros []; discriminate]|discriminate]|contradiction].
  destruct C as (C1 & C2 & _). rewrite C1. split; [tauto|].
  intros x' E. apply Ok_inj in E. subst x'. rewrite C2. split.
  - rewrite (w_at_exact app_id_fields d) by (auto; goods). unfold app_id_fields.
    cbn [exact_at f_enum f_if f_id f_len f_w Nat.add].
    change (f_len f_csv) with 2%nat. rewrite exact_csv by (auto; lia). cbn [Nat.add]. tauto.
  - unfold unmarshal_app_id in U. rewrite eq_guard in U by exact L.
    inv_bind U. inv_bind U. apply Ok_inj in U. subst x. cbn [ai_driver].
    eexists. split; [reflexivity|].
    cbn [ad_events ad_faults ad_activity_length ad_vehicles ad_places].
    rewrite !be_sub2 by lia. repeat split; reflexivity.
Qed.
Print Assumptions C34_app_id_partial.

Theorem C34_app_id_g2_partial :
  forall d, bytes_ok d ->
  (is_ok (unmarshal_app_id_g2 d) = true <-> length d = 17%nat /\ a_code equipment_type_table (nth 0 d 0)) /\
  forall x, unmarshal_app_id_g2 d = Ok x ->
    (append_app_id_g2 (Some x) = Ok d <-> nth 1 d 0 mod 16 <= 9 /\ nth 2 d 0 mod 16 <= 9) /\
    exists a, ai2_driver x = Some a /\
      ad2_events a = Some (nth 3 d 0) /\ ad2_faults a = Some (nth 4 d 0) /\
      ad2_activity_length a = Some (u16_at d 5) /\ ad2_vehicles a = Some (u16_at d 7) /\
      ad2_places a = Some (u16_at d 9) /\ ad2_gnss a = Some (u16_at d 11) /\
      ad2_conditions a = Some (u16_at d 13) /\ ad2_units a = Some (u16_at d 15).
Proof.
  intros d H. pose proof (app_id_g2_codec d H) as C. cbv beta in C. change (flen app_id_g2_fields) with 17%nat in C.
  destruct (Nat.eqb_spec (length d) 17) as [L|L]; cbn [andb] in C.
  2:{ destruct (unmarshal_app_id_g2 d) as [x|e|]; [destruct C; discriminate| |contradiction].
      split; [split; [discriminate|intros []; contradiction]|discriminate]. }
  assert (A : acc_at app_id_g2_fields d 0 = true <-> a_code equipment_type_table (nth 0 d 0)).
  { rewrite !a_code_ok by reflexivity. unfold app_id_g2_fields.
    cbn [acc_at f_enum f_if f_id f_csv f_fun f_len f_acc Nat.add andb].
    rewrite !nth_sub by lia. cbn [Nat.add]. rewrite !andb_true_r. tauto. }
  rewrite <- A.
  destruct (unmarshal_app_id_g2 d) as [x|e|] eqn:U; [|rewrite C; split; [split; [discriminate|intros []; discriminate]|discriminate]|contradiction].
  destruct C as (C1 & C2 & _). rewrite C1. split; [tauto|].
  intros x' E. apply Ok_inj in E. subst x'. rewrite C2. split.
  - rewrite (w_at_exact app_id_g2_fields d) by (auto; goods). unfold app_id_g2_fields.
    cbn [exact_at f_enum f_if f_id f_len f_w Nat.add].
    change (f_len f_csv) with 2%nat. rewrite exact_csv by (auto; lia). cbn [Nat.add]. tauto.
  - unfold unmarshal_app_id_g2 in U. rewrite eq_guard in U by exact L.
    inv_bind U. inv_bind U. apply Ok_inj in U. subst x. cbn [ai2_driver].
    eexists. split; [reflexivity|].
    cbn [ad2_events ad2_faults ad2_activity_length ad2_vehicles ad2_places ad2_gnss ad2_conditions ad2_units].
    rewrite !be_sub2 by lia. repeat split; reflexivity.
Qed.
Print Assumptions C34_app_id_g2_partial.

Theorem C34_app_id_v2_round_trip :
  forall d, bytes_ok d ->
  (length d = 4%nat ->
     exists x, unmarshal_app_id_v2 d = Ok x /\ append_app_id_v2 (Some x) = Ok d /\
       av2_driver x = Some (mkV2C (nth 0 d 0) (nth 1 d 0) (nth 2 d 0) (nth 3 d 0))) /\
  ((length d < 4)%nat -> exists e, unmarshal_app_id_v2 d = Err e).
Proof.
  intros d H. pose proof (app_id_v2_codec d H) as C. cbv beta in C. split; intros L.
  - destruct (unmarshal_app_id_v2 d) as [x|e|] eqn:E; [|rewrite L in C; discriminate|contradiction].
    exists x. split; auto. destruct C as (_ & -> & _). split.
    + apply (w_at_exact app_id_v2_fields d); [goods|auto|auto|reflexivity|]. cbn. auto.
    + unfold unmarshal_app_id_v2 in E. rewrite long_guard in E by lia. apply Ok_inj in E. subst x. reflexivity.
  - unfold unmarshal_app_id_v2. apply short_guard; auto.
Qed.
Print Assumptions C34_app_id_v2_round_trip.

Theorem C34_app_id_refuted :
  (exists d x, bytes_ok d /\ unmarshal_app_id d = Ok x /\ append_app_id (Some x) <> Ok d) /\
  (exists d x, bytes_ok d /\ unmarshal_app_id_g2 d = Ok x /\ append_app_id_g2 (Some x) <> Ok d) /\
  (* version 2: everything after the fourth byte is dropped without an error *)
  (exists d x, bytes_ok d /\ unmarshal_app_id_v2 d = Ok x /\ append_app_id_v2 (Some x) <> Ok d).
Proof.
  split; [|split].
  - exists [1; 0x0A; 0; 12; 12; 1; 2; 3; 4; 5]. eexists. split; [repeat constructor; lia|].
    split; [vm_compute; reflexivity|vm_compute; discriminate].
  - exists [1; 0x0A; 0; 12; 12; 1; 2; 3; 4; 5; 6; 7; 8; 9; 10; 11; 12]. eexists. split; [repeat constructor; lia|].
    split; [vm_compute; reflexivity|vm_compute; discriminate].
  - exists [1; 2; 3; 4; 5]. eexists. split; [repeat constructor; lia|].
    split; [vm_compute; reflexivity|vm_compute; discriminate].
Qed.
Print Assumptions C34_app_id_refuted.

Example C34_example :
  exists x, unmarshal_app_id [1; 0; 0; 12; 24; 0x35; 0xB8; 0; 200; 112] = Ok x /\
    append_app_id (Some x) = Ok [1; 0; 0; 12; 24; 0x35; 0xB8; 0; 200; 112] /\
    option_map ad_activity_length (ai_driver x) = Some (Some 13752).
Proof. eexists. split; [vm_compute; reflexivity|]. split; vm_compute; reflexivity. Qed.

(** * C43: small fixed files *)

Theorem C43_card_download_round_trip :
  forall d, bytes_ok d ->
  (length d = 4%nat -> exists t, unmarshal_card_download d = Ok t /\ append_card_download (Some t) = Ok d) /\
  ((length d < 4)%nat -> exists e, unmarshal_card_download d = Err e).
Proof.
  intros d H. pose proof (card_download_codec d H) as C. cbv beta in C. split; intros L.
  - destruct (unmarshal_card_download d) as [x|e|] eqn:E; [|rewrite L in C; discriminate|contradiction].
    exists x. split; auto. destruct C as (_ & -> & _).
    apply (w_at_exact card_download_fields d); [goods|auto|auto|reflexivity|]. cbn. auto.
  - unfold unmarshal_card_download. apply short_guard; auto.
Qed.
Print Assumptions C43_card_download_round_trip.

(** Current usage: always accepted from 19 bytes on; unchanged exactly when the
    registration is writable (known nation) and its code page known. *)
Theorem C43_current_usage_partial :
  forall cm d, bytes_ok d -> length d = 19%nat ->
  exists x, unmarshal_current_usage cm d = Ok x /\
    (append_current_usage (Some x) = Ok d <->
       a_code nation_numeric_table (nth 4 d 0) /\ legal_code_page (nth 5 d 0)) /\
    (~ a_code nation_numeric_table (nth 4 d 0) -> exists e, append_current_usage (Some x) = Err e).
Proof.
  intros cm d H L. pose proof (current_usage_codec cm d H) as C. cbv beta in C.
  rewrite L in C. change ((flen current_usage_fields <=? 19)%nat) with true in C.
  assert (A : acc_at current_usage_fields d 0 = true) by reflexivity. rewrite A in C. cbn [andb] in C.
  destruct (unmarshal_current_usage cm d) as [x|e|]; [|discriminate|contradiction].
  exists x. split; auto. destruct C as (_ & C & P & _). rewrite C. rewrite legal_known, <- nation_a_code.
  rewrite (w_at_exact current_usage_fields d) by (auto; goods). split.
  - unfold current_usage_fields. cbn [exact_at f_id f_len f_w Nat.add].
    change (f_len f_vreg) with 15%nat. rewrite exact_vreg by (auto; lia). cbn [Nat.add]. tauto.
  - intros N. unfold current_usage_fields. cbn [w_at f_id f_len f_w Nat.add bind].
    change (f_len f_vreg) with 15%nat. unfold f_vreg. rewrite fseq_w.
    cbn [w_at f_nation f_len f_w Nat.add]. rewrite !nth_sub by lia. cbn [Nat.add].
    destruct (nation_knownb (nth 4 d 0)) eqn:E; [apply nation_knownb_iff in E; contradiction|].
    eexists. reflexivity.
Qed.
Print Assumptions C43_current_usage_partial.

Theorem C43_driving_licence_partial :
  forall cm d, bytes_ok d -> length d = 53%nat ->
  exists x, unmarshal_driving_licence cm d = Ok x /\
    (append_driving_licence (Some x) = Ok d <->
       legal_code_page (nth 0 d 0) /\ a_code nation_numeric_table (nth 36 d 0)).
Proof.
  intros cm d H L. pose proof (driving_licence_codec cm d H) as C. cbv beta in C.
  rewrite L in C. change ((flen driving_licence_fields <=? 53)%nat) with true in C.
  assert (A : acc_at driving_licence_fields d 0 = true) by reflexivity. rewrite A in C. cbn [andb] in C.
  destruct (unmarshal_driving_licence cm d) as [x|e|]; [|discriminate|contradiction].
  exists x. split; auto. destruct C as (_ & -> & _). rewrite legal_known, <- nation_a_code.
  rewrite (w_at_exact driving_licence_fields d) by (auto; goods).
  unfold driving_licence_fields. cbn [exact_at f_id f_len Nat.add].
  change (f_len (f_string 36)) with 36%nat. change (f_len f_nation) with 1%nat. cbn [Nat.add].
  rewrite exact_string, exact_nation by (auto; lia). cbn [f_w]. tauto.
Qed.
Print Assumptions C43_driving_licence_partial.

(** Control activity: an empty record (zero time) always comes back; a filled
    one exactly when its registration does and no reserved control-type bit is
    set. *)
Theorem C43_control_activity_partial :
  forall cm d, bytes_ok d -> length d = 46%nat ->
  exists x, unmarshal_control_activity cm d = Ok x /\
    (append_control_activity (Some x) = Ok d <->
       sub d 1 4 = [0; 0; 0; 0] \/
       (nth 0 d 0 mod 8 = 0 /\ a_code nation_numeric_table (nth 23 d 0) /\ legal_code_page (nth 24 d 0))).
Proof.
  intros cm d H L. pose proof (control_activity_codec cm d H) as C. cbv beta in C. rewrite L in C. cbn [Nat.leb] in C.
  destruct (unmarshal_control_activity cm d) as [x|e|]; [|discriminate|contradiction].
  exists x. split; auto. destruct C as (_ & -> & _). unfold w_control. rewrite L. cbn [Nat.eqb].
  assert (Z4 : be (sub d 1 4) = 0 <-> sub d 1 4 = [0; 0; 0; 0]).
  { split.
    - intros E. rewrite <- (to_be_be 4 (sub d 1 4)); [rewrite E; reflexivity|now apply bytes_ok_sub|apply sub_length; lia].
    - intros ->. reflexivity. }
  destruct (Z.eqb_spec (be (sub d 1 4)) 0) as [E|E].
  - split; auto. intros _. left. tauto.
  - rewrite (w_at_exact control_fields d); auto.
    2:{ unfold control_fields. repeat apply Forall_cons; auto using good_control, good_id, good_vreg. }
    unfold control_fields. cbn [exact_at f_id f_len f_w Nat.add].
    change (f_len f_control) with 1%nat. change (f_len f_vreg) with 15%nat. cbn [Nat.add].
    rewrite exact_vreg by (auto; lia). cbn [Nat.add].
    rewrite legal_known, <- nation_a_code.
    assert (S : f_w f_control (sub d 0 1) = Ok (sub d 0 1) <-> nth 0 d 0 mod 8 = 0).
    { cbn [f_control f_fun f_w]. rewrite sub_1 by lia. cbn [nth].
      pose proof (nth_byte_ok d 0 H ltac:(lia)) as B. unfold byte_ok in B.
      assert (SW : forallb (fun b => Bool.eqb (Z.land b 248 =? b) (b mod 8 =? 0)) (zrange 256) = true)
        by (vm_compute; reflexivity).
      pose proof (sweep _ _ SW _ B) as Q. cbv beta in Q. apply Bool.eqb_prop in Q.
      split; intros R.
      - apply Ok_inj in R. injection R as R. lia.
      - do 2 f_equal. lia. }
    rewrite S, <- Z4. tauto.
Qed.
Print Assumptions C43_control_activity_partial.

Theorem C43_small_files_refuted :
  (* a download file of five bytes is accepted and loses its last byte *)
  (exists d t, bytes_ok d /\ unmarshal_card_download d = Ok t /\ append_card_download (Some t) = Ok (firstn 4 d) /\
     append_card_download (Some t) <> Ok d) /\
  (* a control activity file of nominal length loses the reserved bits *)
  (exists d x, bytes_ok d /\ length d = 46%nat /\ unmarshal_control_activity (fun _ b => b) d = Ok x /\
     is_ok (append_control_activity (Some x)) = true /\ append_control_activity (Some x) <> Ok d) /\
  (* an empty control activity file with one byte too many turns into zeros *)
  (exists d x, bytes_ok d /\ unmarshal_control_activity (fun _ b => b) d = Ok x /\
     append_control_activity (Some x) = Ok (repeat 0 46) /\ nth 10 d 0 <> 0) /\
  (* a current usage file with an unknown nation is accepted but cannot be written *)
  (exists d x, bytes_ok d /\ length d = 19%nat /\ unmarshal_current_usage (fun _ b => b) d = Ok x /\
     is_ok (append_current_usage (Some x)) = false).
Proof.
  split; [|split; [|split]].
  - exists [1; 2; 3; 4; 5]. eexists. split; [repeat constructor; lia|]. split; [vm_compute; reflexivity|].
    split; [reflexivity|vm_compute; discriminate].
  - exists ([0x81; 0x60; 0; 0; 0] ++ repeat 65 18 ++ [1; 1] ++ repeat 65 13 ++ repeat 0 8). eexists.
    split; [repeat constructor; vm_compute; intuition discriminate|]. split; [reflexivity|].
    split; [vm_compute; reflexivity|]. split; [vm_compute; reflexivity|vm_compute; discriminate].
  - exists ([0x80; 0; 0; 0; 0] ++ repeat 65 42). eexists.
    split; [repeat constructor; vm_compute; intuition discriminate|].
    split; [vm_compute; reflexivity|]. split; [vm_compute; reflexivity|vm_compute; discriminate].
  - exists ([1; 2; 3; 4] ++ [200; 1] ++ repeat 65 13). eexists.
    split; [repeat constructor; vm_compute; intuition discriminate|]. split; [reflexivity|].
    split; [vm_compute; reflexivity|vm_compute; reflexivity].
Qed.
Print Assumptions C43_small_files_refuted.

Example C43_example :
  let d := [0x80; 0x60; 0; 0; 0] ++ repeat 65 18 ++ [1; 1] ++ repeat 65 13 ++ [0x5F;0;0;0;0x60;0;0;0] in
  length d = 46%nat /\ nth 0 d 0 mod 8 = 0 /\ legal_code_page (nth 24 d 0) /\
  exists x, unmarshal_control_activity (fun _ b => b) d = Ok x /\ ca_valid x = true /\
    append_control_activity (Some x) = Ok d.
Proof.
  split; [reflexivity|]. split; [reflexivity|]. split; [right; left; reflexivity|].
  eexists. split; [vm_compute; reflexivity|]. split; vm_compute; reflexivity.
Qed.
