(** How the painted overview of a first-generation vehicle unit comes out. *)
From Verif Require Import Base Enums Chunks DDScalar Utf8 DDString DDRecord RawTypes Vu
  P_Scalar Props_Scalar P_Utf8 P_String Field P_Basic P_Record P_VuRecord Props_Layout Props_Overview Props_VuWrite.

Lemma forall2_length {X Y} (P : X -> Y -> Prop) xs ys : Forall2 P xs ys -> length xs = length ys.
Proof. intros Q. induction Q; cbn; congruence. Qed.

Lemma overview_steps cm ms vc vin na nu now tm tx sl dt dc dn ls cs sg x :
  length ms = 194%nat -> length vc = 194%nat -> length vin = 17%nat -> length nu = 14%nat ->
  length now = 4%nat -> length tm = 4%nat -> length tx = 4%nat -> length dt = 4%nat ->
  length dc = 18%nat -> length dn = 36%nat -> length sg = 128%nat ->
  Forall (fun b => length b = 98%nat) ls -> Forall (fun b => length b = 31%nat) cs ->
  unmarshal_overview_gen1 cm (overview_bytes ms vc vin na nu now tm tx sl dt dc dn ls cs sg) = Ok x ->
  exists vi rg nw ta tb da db dd ys zs,
    x = mkOv (overview_bytes ms vc vin na nu now tm tx sl dt dc dn ls cs sg) ms vc (Some vi) (Some rg) nw
          (Some (ta, tb)) (Z.land sl 15) (Z.land (Z.shiftr sl 4) 15) [mkDA da (Some db) (Some dd)] ys zs sg /\
    unmarshal_ia5 vin = Ok vi /\ unmarshal_vreg cm ([na] ++ nu) = Ok rg /\ unmarshal_time now = Ok nw /\
    unmarshal_time tm = Ok ta /\ unmarshal_time tx = Ok tb /\ unmarshal_time dt = Ok da /\
    unmarshal_full_card_number dc = Ok db /\ unmarshal_string_value cm dn = Ok dd /\
    Forall2 (fun b l => unmarshal_lock cm b = Ok l) ls ys /\
    Forall2 (fun b c => unmarshal_vu_control b = Ok c) cs zs.
Proof.
  intros L1 L2 L3 L4 L5 L6 L7 L8 L9 L10 L11 FL FC H.
  set (value := overview_bytes ms vc vin na nu now tm tx sl dt dc dn ls cs sg) in *.
  unfold unmarshal_overview_gen1 in H. cbv zeta in H. unfold value at 1, overview_bytes in H.
  clearbody value.
  assert (V : length ([na] ++ nu) = 15%nat) by (rewrite app_length, L4; reflexivity).
  assert (T : length (tm ++ tx) = 8%nat) by (rewrite app_length, L6, L7; reflexivity).
  assert (D : length (dt ++ dc ++ dn) = 58%nat) by (rewrite !app_length, L8, L9, L10; reflexivity).
  remember ([na] ++ nu) as v eqn:Ev. remember (tm ++ tx) as per eqn:Ep.
  remember (dt ++ dc ++ dn) as act eqn:Ea.
  rewrite (eat_part 194 ms) in H by exact L1. cbn [bind] in H.
  rewrite (eat_part 194 vc) in H by exact L2. cbn [bind] in H.
  rewrite (eat_part 17 vin) in H by exact L3. cbn [bind] in H. apply bind_ok in H as (vi & E1 & H).
  rewrite (eat_part 15 v) in H by exact V. cbn [bind] in H. apply bind_ok in H as (rg & E2 & H).
  rewrite (eat_part 4 now) in H by exact L5. cbn [bind] in H. apply bind_ok in H as (nw & E3 & H).
  rewrite (eat_part 8 per) in H by exact T. cbn [bind] in H. apply bind_ok in H as (ta & E4 & H).
  apply bind_ok in H as (tb & E5 & H).
  rewrite (eat_part 1 [sl]) in H by reflexivity. cbn [bind] in H.
  rewrite (eat_part 58 act) in H by exact D. cbn [bind] in H. apply bind_ok in H as (da & E6 & H).
  apply bind_ok in H as (db & E7 & H). apply bind_ok in H as (dd & E8 & H).
  rewrite (eat_part 1 [Z.of_nat (length ls)]) in H by reflexivity. cbn [bind nth] in H.
  rewrite Nat2Z.id in H. apply bind_ok in H as (u1 & _ & H). apply bind_ok in H as ([ys d1] & E9 & H).
  apply eat_records_parts in E9 as [-> E9]; [|exact FL].
  rewrite (eat_part 1 [Z.of_nat (length cs)]) in H by reflexivity. cbn [bind nth] in H.
  rewrite Nat2Z.id in H. apply bind_ok in H as (u2 & _ & H). apply bind_ok in H as ([zs d2] & E10 & H).
  apply eat_records_parts in E10 as [-> E10]; [|exact FC].
  rewrite <- (app_nil_r sg) in H at 1. rewrite (eat_part 128 sg []) in H by exact L11.
  cbn [bind] in H. apply bind_ok in H as (u3 & _ & H). apply Ok_inj in H. subst x.
  subst per act. cut E4. cut E5. cut E6. cut E7. cut E8.
  exists vi, rg, nw, ta, tb, da, db, dd, ys, zs. split; [reflexivity|]. auto 12.
Qed.

(** The written slot byte. *)
Definition w_slots (s : Z) : Z :=
  Z.lor (u8 (Z.shiftl (marshal_enum_or_zero slot_card_type_table (Z.land (Z.shiftr s 4) 15)) 4))
        (Z.land (marshal_enum_or_zero slot_card_type_table (Z.land s 15)) 15).

Lemma overview_written cm ms vc vin na nu now tm tx sl dt dc dn ls cs sg x :
  length ms = 194%nat -> length vc = 194%nat -> length vin = 17%nat -> length nu = 14%nat ->
  length now = 4%nat -> length tm = 4%nat -> length tx = 4%nat -> length dt = 4%nat ->
  length dc = 18%nat -> length dn = 36%nat -> length sg = 128%nat ->
  Forall (fun b => length b = 98%nat) ls -> Forall (fun b => length b = 31%nat) cs ->
  bytes_ok (overview_bytes ms vc vin na nu now tm tx sl dt dc dn ls cs sg) ->
  unmarshal_overview_gen1 cm (overview_bytes ms vc vin na nu now tm tx sl dt dc dn ls cs sg) = Ok x ->
  append_overview_gen1 (Some x) =
  if nation_knownb na then
    Ok (overview_bytes ms vc vin na (w_string nu) now tm tx (w_slots sl) dt (w_fcn dc) (w_string dn)
          (map w_lock ls) (map w_vu_control cs) sg)
  else fail.
Proof.
  intros L1 L2 L3 L4 L5 L6 L7 L8 L9 L10 L11 FL FC B H.
  apply overview_steps in H; try assumption.
  destruct H as (vi & rg & nw & ta & tb & da & db & dd & ys & zs & -> & E1 & E2 & E3 & E4 & E5 & E6 & E7 & E8 & E9 & E10).
  set (d := overview_bytes ms vc vin na nu now tm tx sl dt dc dn ls cs sg) in *.
  assert (Ld : length d = (491 + 1 + length ls * 98 + 1 + length cs * 31 + 128)%nat).
  { unfold d, overview_bytes. rewrite !app_length. cbn [length].
    assert (C : forall n bs, Forall (fun b : bytes => length b = n) bs -> length (concat bs) = (length bs * n)%nat).
    { intros n bs Fb. induction Fb as [|b bs Lb Fb IH]; [reflexivity|]. cbn. rewrite app_length, IH, Lb. lia. }
    rewrite (C 98%nat ls FL), (C 31%nat cs FC). lia. }
  pose proof B as B'. unfold d, overview_bytes in B'. rewrite !bytes_ok_app in B'.
  destruct B' as (_ & _ & Bvin & (Bna & Bnu) & Bnow & (Btm & Btx) & _ & (Bdt & Bdc & Bdn) & Bnl & Bls & Bnc & Bcs & _).
  assert (Snow : sub d 420 4 = now).
  { unfold d, overview_bytes.
    assert (V : length ([na] ++ nu) = 15%nat) by (rewrite app_length, L4; reflexivity).
    generalize dependent ([na] ++ nu). intros v _ V. cutg. }
  clearbody d.
  pose proof (ia5_implements 17 ltac:(lia) vin Bvin L3) as Q. rewrite E1 in Q. destruct Q as [_ W1].
  assert (Bv : bytes_ok ([na] ++ nu)) by (apply bytes_ok_app; auto).
  assert (Lv : length ([na] ++ nu) = 15%nat) by (rewrite app_length, L4; reflexivity).
  pose proof (vreg_implements cm ([na] ++ nu) Bv Lv) as Q. rewrite E2 in Q. destruct Q as [_ W2].
  apply time_written in E4, E5, E6; try assumption.
  apply fcn_written in E7; try assumption. apply string_written in E8; [|lia].
  unfold append_overview_gen1. cbv zeta.
  cbn [ov_raw ov_ms_cert ov_vu_cert ov_vin ov_reg ov_time ov_period ov_driver_slot ov_codriver_slot
       ov_downloads ov_locks ov_controls ov_signature da_time da_card da_name].
  assert (M1 : length ys = length ls) by (symmetry; exact (forall2_length _ _ _ E9)).
  assert (M2 : length zs = length cs) by (symmetry; exact (forall2_length _ _ _ E10)).
  rewrite M1, M2, Ld, Nat.eqb_refl.
  rewrite W1, E4, E5, E6, E7, E8. cbn [f_id f_w bind]. rewrite W2.
  assert (W2' : f_w f_vreg ([na] ++ nu) = if nation_knownb na then Ok ([na] ++ w_string nu) else fail).
  { assert (Y : sub ([na] ++ nu) 1 14 = nu).
    { change ([na] ++ nu) with (na :: nu). unfold sub. rewrite skipn_cons, skipn_O. apply firstn_all2. lia. }
    unfold f_vreg. rewrite fseq_w. cbn [w_at f_nation f_string f_fun f_len f_w Nat.add]. rewrite Y.
    change (sub ([na] ++ nu) 0 1) with [na]. cbn [nth].
    destruct (nation_knownb na); [|reflexivity]. cbn [bind]. rewrite app_nil_r. reflexivity. }
  rewrite W2'. destruct (nation_knownb na); [|reflexivity]. cbn [bind].
  assert (Lnu : length (w_string nu) = 14%nat) by (rewrite w_string_length; lia).
  assert (Ldn : length (w_string dn) = 36%nat) by (rewrite w_string_length; lia).
  assert (Ldc : length (w_fcn dc) = 18%nat) by (apply w_fcn_length; exact L9).
  assert (Lrg : length ([na] ++ w_string nu) = 15%nat) by (rewrite app_length, Lnu; reflexivity).
  unfold paint. cbn [Nat.add].
  rewrite (paint_first d ms 194) by lia.
  rewrite (paint_next _ d vc 194 388) by lia.
  rewrite (paint_next _ d vin 388 405) by (rewrite ?app_length; lia).
  rewrite (paint_next _ d ([na] ++ w_string nu) 405 420) by (rewrite ?app_length; cbn [length]; lia).
  set (p1 := ((ms ++ vc) ++ vin) ++ [na] ++ w_string nu).
  assert (Lp1 : length p1 = 420%nat) by (unfold p1; rewrite !app_length; cbn [length]; lia).
  assert (X : match nw with
              | None => Ok (p1 ++ skipn 420 d)
              | Some t => let* b := append_time (Some t) in Ok (copy_into (p1 ++ skipn 420 d) 420 424 b)
              end = Ok ((p1 ++ now) ++ skipn 424 d)).
  { destruct nw as [t|].
    - apply time_written in E3; [|assumption|assumption]. rewrite E3. cbn [bind].
      rewrite (paint_next p1 d now 420 424) by lia. reflexivity.
    - rewrite <- app_assoc. do 2 f_equal. rewrite <- Snow.
      pose proof (firstn_skipn 4 (skipn 420 d)) as Y. rewrite skipn_skipn in Y. cbn [Nat.add] in Y.
      symmetry. exact Y. }
  rewrite X. clear X. cbn [bind].
  rewrite (paint_next _ d tm 424 428) by (rewrite ?app_length; lia).
  rewrite (paint_next _ d tx 428 432) by (rewrite ?app_length; lia).
  fold (w_slots sl).
  rewrite paint_byte by (rewrite ?app_length; lia). cbn [Nat.add].
  rewrite (paint_next _ d dt 433 437) by (rewrite ?app_length; cbn [length]; lia).
  rewrite (paint_next _ d (w_fcn dc) 437 455) by (rewrite ?app_length; cbn [length]; lia).
  rewrite (paint_next _ d (w_string dn) 455 491) by (rewrite ?app_length; cbn [length]; lia).
  rewrite paint_byte by (rewrite ?app_length; cbn [length]; lia). cbn [Nat.add].
  assert (Kl : u8 (Z.of_nat (length ls)) = Z.of_nat (length ls)).
  { apply bytes_ok_cons in Bnl as [Kb _]. unfold u8, byte_ok in *. apply Z.mod_small. lia. }
  assert (Kc : u8 (Z.of_nat (length cs)) = Z.of_nat (length cs)).
  { apply bytes_ok_cons in Bnc as [Kb _]. unfold u8, byte_ok in *. apply Z.mod_small. lia. }
  rewrite Kl, Kc.
  assert (E9' : Forall2 (fun b l => bytes_ok b /\ length b = 98%nat /\ unmarshal_lock cm b = Ok l) ls ys).
  { clear - E9 FL Bls. induction E9 as [|b l ls ys H E9 IH]; [constructor|].
    apply Forall_cons_iff in FL as [L FL]. cbn in Bls. apply bytes_ok_app in Bls as [B Bls].
    constructor; auto. }
  assert (E10' : Forall2 (fun b c => bytes_ok b /\ length b = 31%nat /\ unmarshal_vu_control b = Ok c) cs zs).
  { clear - E10 FC Bcs. induction E10 as [|b c cs zs H E10 IH]; [constructor|].
    apply Forall_cons_iff in FC as [L FC]. cbn in Bcs. apply bytes_ok_app in Bcs as [B Bcs].
    constructor; auto. }
  assert (Ml : length (concat (map w_lock ls)) = (length ls * 98)%nat).
  { clear - FL. induction FL as [|b bs L FL IH]; [reflexivity|]. cbn [map concat length]. rewrite app_length, IH, w_lock_length by exact L. lia. }
  assert (Mc : length (concat (map w_vu_control cs)) = (length cs * 31)%nat).
  { clear - FC. induction FC as [|b bs L FC IH]; [reflexivity|]. cbn [map concat length]. rewrite app_length, IH, w_vu_control_length by exact L. lia. }
  rewrite (paint_records_eq paint_lock (fun b l => bytes_ok b /\ length b = 98%nat /\ unmarshal_lock cm b = Ok l) w_lock 98
    ltac:(intros b x p e o (X1 & X2 & X3); apply (paint_lock_eq cm b x p e o X1 X2 X3)) ls ys E9');
    [|revert FL; apply Forall_impl; intros b; apply w_lock_length
     |rewrite ?app_length; cbn [length]; lia|lia].
  cbn [bind].
  rewrite paint_byte by (rewrite ?app_length, ?Ml; cbn [length]; lia).
  rewrite (paint_records_eq paint_control (fun b c => bytes_ok b /\ length b = 31%nat /\ unmarshal_vu_control b = Ok c) w_vu_control 31
    ltac:(intros b x p e o (X1 & X2 & X3); apply (paint_control_eq b x p e o X1 X2 X3)) cs zs E10');
    [|revert FC; apply Forall_impl; intros b; apply w_vu_control_length
     |rewrite ?app_length, ?Ml; cbn [length]; lia|lia].
  cbn [bind].
  rewrite (paint_next _ d sg (492 + length ls * 98 + 1 + length cs * 31)
            (492 + length ls * 98 + 1 + length cs * 31 + 128)%nat);
    [|rewrite ?app_length, ?Ml, ?Mc; cbn [length]; lia|lia|lia].
  rewrite (skipn_all2 d) by lia. f_equal. unfold p1, overview_bytes.
  rewrite !map_length, !app_nil_r. rewrite <- !app_assoc. reflexivity.
Qed.

