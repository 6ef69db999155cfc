(** The shared parsers against the parsers of Vu.v. *)

From Verif Require Import Base Enums Chunks DDScalar DDString DDRecord RawTypes Vu Share.

(** ** Outcomes side by side *)

Definition both {X Y} (P : X -> Y -> Prop) (a : res X) (b : res Y) : Prop :=
  match a, b with
  | Ok x, Ok y => P x y
  | Err e, Err e' => e = e'
  | Panic, Panic => True
  | _, _ => False
  end.

Lemma both_bind {X Y X' Y'} (P : X -> Y -> Prop) (Q : X' -> Y' -> Prop) a b k l :
  both P a b -> (forall x y, a = Ok x -> b = Ok y -> P x y -> both Q (k x) (l y)) ->
  both Q (let* x := a in k x) (let* y := b in l y).
Proof. intros HP HQ. destruct a, b; cbn in *; try contradiction; try assumption. now apply HQ. Qed.

Lemma both_same {X X' Y'} (Q : X' -> Y' -> Prop) (a : res X) k l :
  (forall x, a = Ok x -> both Q (k x) (l x)) ->
  both Q (let* x := a in k x) (let* y := a in l y).
Proof. intros HQ. destruct a; cbn; auto. Qed.

(** ** Buffers *)

(** [mask] hides what overwriting the buffer may change. *)
Definition agree (mask : bytes -> bytes) (s : buffer) : Prop :=
  forall i n, mask (later (part s i n)) = mask (now (part s i n)).

Lemma now_part s i n : now (part s i n) = sub (now s) i n.
Proof. unfold now, part, sub. now rewrite <- firstn_map, <- skipn_map. Qed.

Lemma now_firstn n s : now (firstn n s) = firstn n (now s).
Proof. unfold now. now rewrite <- firstn_map. Qed.

Lemma now_skipn n s : now (skipn n s) = skipn n (now s).
Proof. unfold now. now rewrite <- skipn_map. Qed.

Lemma now_length s : length (now s) = length s.
Proof. apply map_length. Qed.

Lemma later_length s : length (later s) = length s.
Proof. apply map_length. Qed.

Lemma part_whole s : part s 0 (length s) = s.
Proof. unfold part. cbn. apply firstn_all. Qed.

Lemma agree_whole mask s : agree mask s -> mask (later s) = mask (now s).
Proof. intros A. specialize (A 0%nat (length s)). now rewrite part_whole in A. Qed.

Lemma part_part s i n j m : part (part s i n) j m = part s (i + j) (Nat.min m (n - j)).
Proof. unfold part. rewrite skipn_firstn_comm, firstn_firstn, skipn_skipn. do 2 f_equal. Qed.

Lemma agree_part mask s i n : agree mask s -> agree mask (part s i n).
Proof. intros A j m. rewrite part_part. apply A. Qed.

Lemma agree_firstn mask s n : agree mask s -> agree mask (firstn n s).
Proof. intros A. exact (agree_part mask s 0 n A). Qed.

Lemma agree_skipn mask s n : agree mask s -> agree mask (skipn n s).
Proof.
  intros A. assert (E : skipn n s = part s n (length s)).
  { unfold part. rewrite firstn_all2; [reflexivity|]. rewrite skipn_length. lia. }
  rewrite E. now apply agree_part.
Qed.

(** ** Messages with hidden bytes *)

Section Mask.
Variable mask : bytes -> bytes.

Definition hide_ia5 x := mkIA5 (option_map mask (ia5_raw x)) (ia5_length x) (ia5_value x).
Definition hide_sv x := mkSV (option_map mask (sv_raw x)) (sv_encoding x) (sv_length x) (sv_value x).
Definition hide_date x := mkDate (option_map mask (date_raw x)) (date_year x) (date_month x) (date_day x).
Definition hide_ct x := mkCT (option_map mask (ct_raw x)) (ct_card_downloading x) (ct_vu_downloading x)
  (ct_printing x) (ct_display x) (ct_calibration_checking x).
Definition hide_di x := mkDI (option_map hide_ia5 (di_number x)).
Definition hide_oi x := mkOI (option_map hide_ia5 (oi_number x)) (option_map hide_ia5 (oi_consecutive x))
  (option_map hide_ia5 (oi_replacement x)) (option_map hide_ia5 (oi_renewal x)).
Definition hide_fcn x := mkFCN (fcn_type x) (fcn_state x) (option_map hide_di (fcn_driver x))
  (option_map hide_oi (fcn_owner x)).
Definition hide_vreg x := DDString.mkVR (vr_nation x) (option_map hide_sv (vr_number x)).
Definition hide_hn x := mkHN (option_map hide_sv (hn_surname x)) (option_map hide_sv (hn_first_names x)).
Definition hide_pv x := mkPV (mask (pv_raw x)) (option_map hide_vreg (pv_reg x)) (pv_withdrawal x).
Definition hide_iw x := mkIW (mask (iw_raw x)) (option_map hide_hn (iw_holder x))
  (option_map hide_fcn (iw_card x)) (option_map hide_date (iw_expiry x)) (iw_insertion x)
  (iw_odo_insertion x) (iw_slot x) (iw_withdrawal x) (iw_odo_withdrawal x)
  (option_map hide_pv (iw_previous x)) (iw_manual x).
Definition hide_da x := mkDA (da_time x) (option_map hide_fcn (da_card x)) (option_map hide_sv (da_name x)).
Definition hide_cl x := mkCL (cl_in x) (cl_out x) (option_map hide_sv (cl_name x))
  (option_map hide_sv (cl_address x)) (option_map hide_fcn (cl_card x)).
Definition hide_vc x := mkVC (option_map hide_ct (vc_type x)) (vc_time x) (option_map hide_fcn (vc_card x))
  (vc_begin x) (vc_end x).
Definition hide_ov x := mkOv (mask (ov_raw x)) (mask (ov_ms_cert x)) (mask (ov_vu_cert x))
  (option_map hide_ia5 (ov_vin x)) (option_map hide_vreg (ov_reg x)) (ov_time x) (ov_period x)
  (ov_driver_slot x) (ov_codriver_slot x) (map hide_da (ov_downloads x)) (map hide_cl (ov_locks x))
  (map hide_vc (ov_controls x)) (mask (ov_signature x)).
Definition hide_vp x := mkVP (vp_time x) (vp_type x) (vp_country x) (mask (vp_region x)) (vp_odometer x).
(** The changes are left alone. *)
Definition hide_acts x := mkActs (mask (Vu.ac_raw x)) (ac_date x) (ac_odometer x) (map hide_iw (ac_iw x))
  (ac_changes x) (map hide_vp (ac_places x)) (ac_conditions x) (mask (ac_signature x)).
Definition hide_rs x := mkRS (mask (rs_raw x)) (mask (rs_signature x)).
Definition hide_g1 x := mkG1 (option_map hide_ov (g1_overview x)) (map hide_acts (g1_activities x))
  (map hide_rs (g1_events x)) (map hide_rs (g1_speed x)) (map hide_rs (g1_technical x)).
Definition hide_g2 x := mkG2 (option_map mask (g2_overview x)) (map mask (g2_activities x))
  (map mask (g2_events x)) (map mask (g2_speed x)) (map mask (g2_technical x)).
Definition hide_vu x := match x with
  | VuGen1 f => VuGen1 (hide_g1 f) | VuGen2V1 f => VuGen2V1 (hide_g2 f) | VuGen2V2 f => VuGen2V2 (hide_g2 f)
  end.

(** The same up to hidden bytes *)
Definition like {X} (h : X -> X) (a b : res X) : Prop := both (fun x y => h x = h y) a b.

Lemma ia5_like s : agree mask s -> like hide_ia5 (share_ia5 s) (unmarshal_ia5 (now s)).
Proof.
  intros A. unfold share_ia5, unmarshal_ia5. destruct (_ =? _)%nat; cbn; [reflexivity|].
  unfold hide_ia5; cbn. now rewrite agree_whole.
Qed.

Lemma date_like s : agree mask s -> like hide_date (share_date s) (unmarshal_date (now s)).
Proof.
  intros A. unfold share_date, unmarshal_date, guard. destruct (_ =? _)%nat; cbn; [|reflexivity].
  unfold hide_date; cbn. now rewrite agree_whole.
Qed.

Lemma ct_like s : agree mask s -> like hide_ct (share_control_type s) (unmarshal_control_type (now s)).
Proof.
  intros A. unfold share_control_type, unmarshal_control_type, guard. destruct (negb _); cbn; [|reflexivity].
  unfold hide_ct; cbn. now rewrite agree_whole.
Qed.

Lemma sv_like cm s : agree mask s ->
  like hide_sv (share_string_value cm s) (unmarshal_string_value cm (now s)).
Proof.
  intros A. unfold share_string_value, unmarshal_string_value. destruct (_ <? _)%nat; cbn; [reflexivity|].
  unfold hide_sv; cbn. now rewrite agree_whole.
Qed.

Ltac part_agree := first [assumption | apply agree_part; part_agree | apply agree_firstn; part_agree
                         | apply agree_skipn; part_agree].

(** One step of two parsers: the same check, or two parsers already compared. *)
Ltac stepped lem :=
  first [ rewrite <- now_part | idtac ];
  eapply both_bind; [apply lem; part_agree | let x := fresh "x" in let y := fresh "y" in
                     let H := fresh "H" in intros x y _ _ H].

Lemma di_like s : agree mask s -> like hide_di (share_driver_id s) (unmarshal_driver_id (now s)).
Proof.
  intros A. unfold like, share_driver_id, unmarshal_driver_id. rewrite now_length, <- now_part.
  apply both_same; intros _ _. stepped ia5_like. cbn. unfold hide_di; cbn. congruence.
Qed.

Lemma oi_like s : agree mask s -> like hide_oi (share_owner_id s) (unmarshal_owner_id (now s)).
Proof.
  intros A. unfold like, share_owner_id, unmarshal_owner_id. rewrite now_length, <- !now_part.
  apply both_same; intros _ _. do 4 stepped ia5_like. cbn. unfold hide_oi; cbn. congruence.
Qed.

Lemma fcn_like s : agree mask s ->
  like hide_fcn (share_full_card_number s) (unmarshal_full_card_number (now s)).
Proof.
  intros A. unfold like, share_full_card_number, unmarshal_full_card_number.
  rewrite now_length, <- !now_part.
  apply both_same; intros _ _. apply both_same; intros t _.
  destruct (t =? EQ_DRIVER_CARD).
  - stepped di_like. cbn. unfold hide_fcn; cbn. congruence.
  - destruct (_ || _); [|reflexivity]. stepped oi_like. cbn. unfold hide_fcn; cbn. congruence.
Qed.

Section Charmap.
Variable cm : Z -> Z -> Z.

Lemma vreg_like s : agree mask s -> like hide_vreg (share_vreg cm s) (unmarshal_vreg cm (now s)).
Proof.
  intros A. unfold like, share_vreg, unmarshal_vreg. rewrite now_length, <- !now_part.
  apply both_same; intros _ _. stepped sv_like. cbn. unfold hide_vreg; cbn. congruence.
Qed.

Lemma hn_like s : agree mask s -> like hide_hn (share_holder_name cm s) (unmarshal_holder_name cm (now s)).
Proof.
  intros A. unfold like, share_holder_name, unmarshal_holder_name. rewrite now_length, <- !now_part.
  apply both_same; intros _ _. do 2 stepped sv_like. cbn. unfold hide_hn; cbn. congruence.
Qed.

Lemma pv_like s : agree mask s ->
  like hide_pv (share_previous_vehicle cm s) (unmarshal_previous_vehicle cm (now s)).
Proof.
  intros A. unfold like, share_previous_vehicle, unmarshal_previous_vehicle.
  rewrite now_length, <- !now_part.
  apply both_same; intros _ _. stepped vreg_like. apply both_same; intros t _. cbn.
  unfold hide_pv; cbn. rewrite agree_whole by assumption. congruence.
Qed.

Lemma iw_like s : agree mask s -> like hide_iw (share_card_iw cm s) (unmarshal_card_iw cm (now s)).
Proof.
  intros A. unfold like, share_card_iw, unmarshal_card_iw. rewrite now_length, <- !now_part.
  apply both_same; intros _ _. stepped hn_like. stepped fcn_like. stepped date_like.
  do 5 (apply both_same; intros ? _). stepped pv_like. cbn.
  unfold hide_iw; cbn. rewrite agree_whole by assumption. congruence.
Qed.

Lemma cl_like s : agree mask s -> like hide_cl (share_lock cm s) (unmarshal_lock cm (now s)).
Proof.
  intros A. unfold like, share_lock, unmarshal_lock. rewrite <- !now_part.
  do 2 (apply both_same; intros ? _). do 2 stepped sv_like. stepped fcn_like. cbn.
  unfold hide_cl; cbn. congruence.
Qed.

Lemma vc_like s : agree mask s -> like hide_vc (share_vu_control s) (unmarshal_vu_control (now s)).
Proof.
  intros A. unfold like, share_vu_control, unmarshal_vu_control. rewrite <- !now_part.
  stepped ct_like. apply both_same; intros ? _. stepped fcn_like. do 2 (apply both_same; intros ? _). cbn.
  unfold hide_vc; cbn. congruence.
Qed.

Lemma vp_like s : agree mask s -> like hide_vp (share_vu_place s) (unmarshal_vu_place (now s)).
Proof.
  intros A. unfold like, share_vu_place, unmarshal_vu_place. rewrite <- !now_part.
  do 4 (apply both_same; intros ? _). cbn [both]. unfold hide_vp. cbn [vp_time vp_type vp_country vp_region vp_odometer]. rewrite (A 24%nat 1%nat). reflexivity.
Qed.

Lemma take_both {X Y} (Q : X -> Y -> Prop) n s k l :
  both Q (k (firstn n s, skipn n s)) (l (now (firstn n s), now (skipn n s))) ->
  both Q (bind (take n s) k) (bind (eat n (now s)) l).
Proof.
  intros HQ. unfold take, eat. rewrite now_length. unfold guard. destruct (negb _); cbn; [|reflexivity].
  now rewrite <- now_firstn, <- now_skipn.
Qed.

Definition rows {X} (h : X -> X) (s : buffer) (p : list X * buffer) (q : list X * bytes) : Prop :=
  map h (fst p) = map h (fst q) /\ snd q = now (snd p) /\ exists n, snd p = skipn n s.

Lemma records_like {X} (h : X -> X) un un' n :
  (forall s, agree mask s -> like h (un s) (un' (now s))) -> forall k s, agree mask s ->
  both (rows h s) (take_records un n k s) (eat_records un' n k (now s)).
Proof.
  intros L. induction k as [|k IH]; intros s A; cbn [take_records eat_records].
  - cbn. split; [reflexivity|]. split; [reflexivity|]. now exists 0%nat.
  - apply take_both. cbn beta iota. eapply both_bind; [apply L; part_agree|].
    intros x y _ _ Hx. eapply both_bind; [apply IH; part_agree|].
    intros [xs t] [ys t'] _ _ (Hm & Hn & m & Hs). cbn [fst snd] in *. cbn. unfold rows; cbn [fst snd map].
    split; [congruence|]. split; [assumption|]. exists (n + m)%nat. rewrite Hs, skipn_skipn. reflexivity.
Qed.

Lemma both_records {X Y Y'} (h : X -> X) (Q : Y -> Y' -> Prop) un un' n c s k l :
  (forall s, agree mask s -> like h (un s) (un' (now s))) -> agree mask s ->
  (forall xs ys t, map h xs = map h ys -> agree mask t -> both Q (k (xs, t)) (l (ys, now t))) ->
  both Q (bind (take_records un n c s) k) (bind (eat_records un' n c (now s)) l).
Proof.
  intros L A HQ. eapply both_bind; [exact (records_like h un un' n L c s A)|].
  intros [xs t] [ys t'] _ _ (Hm & Hn & m & Hs). cbn [fst snd] in *. subst. apply HQ; [assumption|].
  now apply agree_skipn.
Qed.

Lemma take_agreed {X Y} (Q : X -> Y -> Prop) n s k l :
  agree mask s ->
  (forall b t, agree mask b -> agree mask t -> both Q (k (b, t)) (l (now b, now t))) ->
  both Q (bind (take n s) k) (bind (eat n (now s)) l).
Proof. intros A HQ. apply take_both. apply HQ; part_agree. Qed.

Ltac taken b t := apply take_agreed; [assumption|]; intros b t ? ?; cbn beta iota.

Lemma ov_like s : agree mask s ->
  like hide_ov (share_overview_gen1 cm s) (unmarshal_overview_gen1 cm (now s)).
Proof.
  intros A. unfold like, share_overview_gen1, unmarshal_overview_gen1. cbv zeta.
  taken ms t. taken vc t1. taken b t2. stepped ia5_like. taken b1 t3. stepped vreg_like.
  taken b2 t4. apply both_same; intros ? _. taken b3 t5. rewrite <- !now_part.
  do 2 (apply both_same; intros ? _). taken b4 t6. taken b5 t7. rewrite <- !now_part.
  apply both_same; intros ? _. stepped fcn_like. stepped sv_like. taken b6 t8. rewrite now_length.
  apply both_same; intros _ _.
  apply (both_records hide_cl); [exact cl_like|assumption|]; intros ls ls' t9 Hl A9; cbn beta iota.
  taken b7 t10. rewrite now_length. apply both_same; intros _ _.
  apply (both_records hide_vc); [exact vc_like|assumption|]; intros cs cs' t11 Hc A11; cbn beta iota.
  taken sg t12. rewrite now_length. apply both_same; intros _ _. cbn.
  unfold hide_ov; cbn. unfold hide_da; cbn. rewrite !agree_whole by assumption. congruence.
Qed.

Lemma map_id_eq {X} (xs ys : list X) : map (fun x => x) xs = map (fun x => x) ys -> xs = ys.
Proof. now rewrite !map_id. Qed.

Lemma acts_like s : agree mask s ->
  like hide_acts (share_activities_gen1 cm s) (unmarshal_activities_gen1 cm (now s)).
Proof.
  intros A. unfold like, share_activities_gen1, unmarshal_activities_gen1. cbv zeta.
  taken b t. apply both_same; intros ? _. taken b1 t1. apply both_same; intros ? _. taken b2 t2.
  apply (both_records hide_iw); [exact iw_like|assumption|]; intros xs xs' t3 Hx A3; cbn beta iota.
  taken b3 t4. apply (both_records (fun x => x)); [|assumption|].
  { intros q _. unfold like. destruct (unmarshal_activity_change (now q)); cbn; auto. }
  intros ys ys' t5 Hy A5; cbn beta iota. apply map_id_eq in Hy.
  taken b4 t6.
  apply (both_records hide_vp); [exact vp_like|assumption|]; intros ps ps' t7 Hp A7; cbn beta iota.
  taken b5 t8. apply (both_records (fun x => x)); [|assumption|].
  { intros q _. unfold like. destruct (unmarshal_spec_cond (now q)); cbn; auto. }
  intros zs zs' t9 Hz A9; cbn beta iota. apply map_id_eq in Hz.
  taken sg t10. rewrite now_length. apply both_same; intros _ _. cbn.
  unfold hide_acts; cbn. rewrite !agree_whole by assumption. congruence.
Qed.

End Charmap.

Lemma rs_like s : agree mask s -> like hide_rs (share_raw_signed s) (unmarshal_raw_signed (now s)).
Proof.
  intros A. unfold like, share_raw_signed, unmarshal_raw_signed. rewrite now_length, <- now_skipn.
  apply both_same; intros _ _. cbn. unfold hide_rs; cbn.
  rewrite (agree_whole mask s A), (agree_whole mask _ (agree_skipn mask s _ A)). reflexivity.
Qed.

Lemma gen2_like t s : agree mask s -> like mask (share_gen2 t s) (unmarshal_gen2 t (now s)).
Proof.
  intros A. unfold like, share_gen2. destruct (unmarshal_gen2 t (now s)) as [x| |] eqn:E; cbn; auto.
  assert (x = now s) as ->.
  { unfold unmarshal_gen2 in E. destruct (skip_record_arrays _ _ _); cbn in E; try discriminate.
    unfold guard in E. destruct (_ =? _); cbn in E; [congruence|discriminate]. }
  now apply agree_whole.
Qed.

End Mask.
