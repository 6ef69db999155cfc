(** Lemmas about text fields. *)

From Verif Require Import Base Enums DDScalar Utf8 P_Utf8 DDString.

(** The code pages the code knows. *)
Definition known_pages : list Z := [0; 1; 2; 3; 5; 7; 9; 13; 15; 16; 80; 85; 255].
Definition page_known (cp : Z) : Prop := In cp known_pages.

Definition norm_page (cp : Z) : Z := code_page_of_encoding (encoding_of_code_page cp).

Lemma norm_page_sweep :
  forallb (fun cp => norm_page cp =? if existsb (Z.eqb cp) known_pages then cp else 255) (zrange 256) = true.
Proof. vm_compute. reflexivity. Qed.

Lemma existsb_in l x : existsb (Z.eqb x) l = true <-> In x l.
Proof.
  rewrite existsb_exists. split.
  - intros (y & Hy & E). apply Z.eqb_eq in E. subst; auto.
  - intros H. exists x; split; auto. apply Z.eqb_refl.
Qed.

Lemma norm_page_known cp : page_known cp -> norm_page cp = cp.
Proof.
  unfold page_known, known_pages. cbn [In]. intros H.
  repeat (destruct H as [<-|H]; [reflexivity|]). contradiction.
Qed.

Lemma norm_page_unknown cp : byte_ok cp -> ~ page_known cp -> norm_page cp = 255.
Proof.
  intros H N. pose proof (sweep _ _ norm_page_sweep cp H) as S. cbv beta in S.
  apply Z.eqb_eq in S. rewrite S. destruct (existsb (Z.eqb cp) known_pages) eqn:E; auto.
  apply existsb_in in E. contradiction.
Qed.

Section WithCharmaps.
Variable cm : Z -> Z -> Z.

Lemma unmarshal_string_ok d :
  (2 <= length d)%nat ->
  exists v, unmarshal_string_value cm d =
    Ok (mkSV (Some d) (encoding_of_code_page (nth 0 d 0)) (Some (Z.of_nat (length d) - 1)) v).
Proof.
  intros H. unfold unmarshal_string_value.
  destruct (Nat.ltb_spec (length d) 2); [lia|].
  eexists. repeat f_equal. rewrite skipn_length. lia.
Qed.

(** What a parsed text field is written back as. *)
Lemma string_write_back d sv :
  unmarshal_string_value cm d = Ok sv ->
  append_string_value (Some sv) = Ok (norm_page (nth 0 d 0) :: skipn 1 d).
Proof.
  intros U. unfold unmarshal_string_value in U.
  destruct (Nat.ltb_spec (length d) 2); [discriminate|]. apply Ok_inj in U. subst sv.
  unfold append_string_value. cbn [sv_raw sv_length sv_encoding sv_value odflt].
  destruct (Nat.ltb_spec (length d) 1); [lia|]. cbn [negb guard bind].
  destruct (Z.eqb_spec (Z.of_nat (length d)) (1 + Z.of_nat (length (skipn 1 d)))) as [_|N].
  2: { rewrite skipn_length in N. lia. }
  cbn [guard bind]. destruct (Nat.ltb_spec 0 (length d)); [|lia].
  unfold set_byte. rewrite copy_into_eq by (simpl; lia). cbn [firstn Nat.add].
  destruct d; [simpl in *; lia|]. reflexivity.
Qed.

Lemma string_round_trip d sv :
  page_known (nth 0 d 0) -> unmarshal_string_value cm d = Ok sv ->
  append_string_value (Some sv) = Ok d.
Proof.
  intros K U. rewrite (string_write_back d sv U), norm_page_known by auto.
  unfold unmarshal_string_value in U. destruct (Nat.ltb_spec (length d) 2); [discriminate|].
  destruct d; [simpl in *; lia|]. reflexivity.
Qed.

Lemma unmarshal_string_no_panic d : unmarshal_string_value cm d <> Panic.
Proof. unfold unmarshal_string_value. destruct (_ <? _)%nat; discriminate. Qed.

Lemma unmarshal_string_len d sv : unmarshal_string_value cm d = Ok sv -> (2 <= length d)%nat.
Proof.
  unfold unmarshal_string_value. destruct (Nat.ltb_spec (length d) 2); [discriminate|auto].
Qed.

(** Decoded text is clean. *)
Lemma decode_with_code_page_clean cp data : clean_text (decode_with_code_page cm cp data).
Proof.
  unfold decode_with_code_page.
  assert (E : clean_text []) by (exists []; repeat split; auto).
  destruct (cp =? 255); auto. destruct (negb _); auto.
  apply make_valid_trim_clean.
  induction data as [|b data IH]; [constructor|]. cbn. apply bytes_ok_app; split; auto.
  apply encode_rune_bytes.
Qed.

Lemma string_value_clean d sv :
  unmarshal_string_value cm d = Ok sv -> clean_text (sv_value sv).
Proof.
  unfold unmarshal_string_value. destruct (_ <? _)%nat; [discriminate|].
  intros E; apply Ok_inj in E; subst. apply decode_with_code_page_clean.
Qed.

End WithCharmaps.

Lemma unmarshal_ia5_ok d : (1 <= length d)%nat ->
  unmarshal_ia5 d = Ok (mkIA5 (Some d) (Some (Z.of_nat (length d))) (make_valid (trim d))).
Proof. intros H. unfold unmarshal_ia5. destruct (Nat.eqb_spec (length d) 0); [lia|reflexivity]. Qed.

Lemma ia5_round_trip d s : unmarshal_ia5 d = Ok s -> append_ia5 (Some s) = Ok d.
Proof.
  unfold unmarshal_ia5. destruct (Nat.eqb_spec (length d) 0); [discriminate|].
  intros E; apply Ok_inj in E; subst. unfold append_ia5. cbn [ia5_length ia5_raw].
  rewrite Z.eqb_refl. reflexivity.
Qed.

Lemma ia5_clean d s : bytes_ok d -> unmarshal_ia5 d = Ok s -> clean_text (ia5_value s).
Proof.
  intros H. unfold unmarshal_ia5. destruct (Nat.eqb_spec (length d) 0); [discriminate|].
  intros E; apply Ok_inj in E; subst. apply make_valid_trim_clean; auto.
Qed.

Lemma unmarshal_ia5_no_panic d : unmarshal_ia5 d <> Panic.
Proof. unfold unmarshal_ia5. destruct (_ =? _)%nat; discriminate. Qed.

Lemma pad_spaces_length n s : (length s <= n)%nat -> length (pad_spaces n s) = n.
Proof. intros. unfold pad_spaces. rewrite app_length, repeat_length. lia. Qed.

(** ** Vehicle registrations *)

Lemma nation_wf : enum_wfb nation_numeric_table = true.
Proof. vm_compute. reflexivity. Qed.

Definition nation_known (b : Z) : Prop := exists v, In (v, Some b) nation_numeric_table.

Lemma nation_known_dec b : {nation_known b} + {~ nation_known b}.
Proof.
  destruct (unmarshal_enum nation_numeric_table b) as [v|e|] eqn:E.
  - left. exists v. now apply unmarshal_enum_sound.
  - right. intros [v H]. apply (unmarshal_enum_iff _ _ _ nation_wf) in H; congruence.
  - exfalso. now apply unmarshal_enum_no_panic in E.
Qed.

Lemma nation_known_enum b :
  nation_known b -> exists v, unmarshal_enum nation_numeric_table b = Ok v /\
    marshal_enum nation_numeric_table v = Ok b /\ (v =? ENUM_UNRECOGNIZED) = false.
Proof.
  intros [v H]. exists v. split; [|split].
  - apply unmarshal_enum_iff; [apply nation_wf|auto].
  - apply marshal_enum_iff; [apply nation_wf|auto].
  - destruct (Z.eqb_spec v ENUM_UNRECOGNIZED) as [->|]; auto. exfalso. revert H. clear.
    unfold nation_numeric_table, ENUM_UNRECOGNIZED. cbn [In]. intros H.
    repeat (destruct H as [H|H]; [discriminate H|]). exact H.
Qed.

Lemma nation_unknown_enum b :
  ~ nation_known b -> unmarshal_enum nation_numeric_table b = fail.
Proof.
  intros N. destruct (unmarshal_enum nation_numeric_table b) as [v|e|] eqn:E.
  - exfalso. apply N. exists v. now apply unmarshal_enum_sound.
  - revert E. generalize nation_numeric_table. intros T. induction T as [|[n [q|]] T IH]; simpl.
    + auto.
    + destruct (q =? b); [discriminate|auto].
    + auto.
  - exfalso. now apply unmarshal_enum_no_panic in E.
Qed.

Section WithCharmaps2.
Variable cm : Z -> Z -> Z.

Lemma unmarshal_vreg_ok d :
  length d = 15%nat -> exists v, unmarshal_vreg cm d = Ok v.
Proof.
  intros L. unfold unmarshal_vreg. rewrite L. cbn [Nat.eqb guard bind].
  destruct (unmarshal_string_ok cm (sub d 1 14)) as (v & E).
  { rewrite sub_length by lia. lia. }
  rewrite E. eexists. reflexivity.
Qed.

Lemma vreg_write_back d v :
  unmarshal_vreg cm d = Ok v ->
  (nation_known (nth 0 d 0) ->
     append_vreg (Some v) = Ok (nth 0 d 0 :: norm_page (nth 1 d 0) :: sub d 2 13)) /\
  (~ nation_known (nth 0 d 0) -> append_vreg (Some v) = fail).
Proof.
  intros U. unfold unmarshal_vreg in U. inv_bind U. inv_bind U. inv_ok.
  apply Nat.eqb_eq in E. rename a0 into num.
  assert (ES : append_string_value (Some num) = Ok (norm_page (nth 1 d 0) :: sub d 2 13)).
  { rewrite (string_write_back cm _ _ E0). f_equal. f_equal.
    - rewrite nth_sub by lia. reflexivity.
    - unfold sub. rewrite skipn_firstn_comm, skipn_skipn. reflexivity. }
  split.
  - intros K. destruct (nation_known_enum _ K) as (n & E1 & E2 & E3).
    unfold append_vreg. cbn [vr_nation vr_number]. rewrite E1, E3, E2. cbn [bind].
    rewrite ES. reflexivity.
  - intros K. rewrite nation_unknown_enum by auto. reflexivity.
Qed.

Lemma vreg_round_trip d v :
  nation_known (nth 0 d 0) -> page_known (nth 1 d 0) ->
  unmarshal_vreg cm d = Ok v -> append_vreg (Some v) = Ok d.
Proof.
  intros K P U. destruct (vreg_write_back d v U) as [A _]. rewrite (A K).
  rewrite norm_page_known by auto. f_equal.
  unfold unmarshal_vreg in U. inv_bind U. inv_ok. apply Nat.eqb_eq in E.
  rewrite <- (sub_whole d 15 E) at 4.
  destruct d as [|x [|y d]]; try (simpl in E; lia). reflexivity.
Qed.

Lemma unmarshal_vreg_no_panic d : unmarshal_vreg cm d <> Panic.
Proof.
  unfold unmarshal_vreg. intros H. apply bind_panic in H as [H|(? & _ & H)].
  - now apply guard_no_panic in H.
  - apply bind_panic in H as [H|(? & _ & H)]; [|discriminate].
    now apply unmarshal_string_no_panic in H.
Qed.

Lemma unmarshal_vreg_len d v : unmarshal_vreg cm d = Ok v -> length d = 15%nat.
Proof. intros U. unfold unmarshal_vreg in U. inv_bind U. inv_ok. lia. Qed.

(** ** Holder names *)

Lemma unmarshal_holder_name_ok d :
  length d = 72%nat -> exists h, unmarshal_holder_name cm d = Ok h.
Proof.
  intros L. unfold unmarshal_holder_name. rewrite L. cbn [Nat.eqb guard bind].
  destruct (unmarshal_string_ok cm (sub d 0 36)) as (v & E); [rewrite sub_length; lia|].
  destruct (unmarshal_string_ok cm (sub d 36 36)) as (v' & E'); [rewrite sub_length; lia|].
  rewrite E, E'. eexists. reflexivity.
Qed.

Lemma holder_name_round_trip d h :
  page_known (nth 0 d 0) -> page_known (nth 36 d 0) ->
  unmarshal_holder_name cm d = Ok h -> append_holder_name (Some h) = Ok d.
Proof.
  intros P1 P2 U. unfold unmarshal_holder_name in U. inv_bind U. inv_bind U. inv_bind U. inv_ok.
  apply Nat.eqb_eq in E. unfold append_holder_name. cbn [hn_surname hn_first_names].
  rewrite (string_round_trip cm (sub d 0 36)), (string_round_trip cm (sub d 36 36)); auto.
  - cbn [bind]. f_equal. rewrite sub_join by reflexivity. apply sub_whole. auto.
  - rewrite nth_sub by lia. exact P2.
  - rewrite nth_sub by lia. exact P1.
Qed.

Lemma unmarshal_holder_name_no_panic d : unmarshal_holder_name cm d <> Panic.
Proof.
  unfold unmarshal_holder_name. intros H.
  repeat (apply bind_panic in H as [H|(? & _ & H)]; [solve [now apply guard_no_panic in H | now apply unmarshal_string_no_panic in H]|]).
  discriminate.
Qed.

End WithCharmaps2.
