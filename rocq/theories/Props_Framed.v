(** C90: accepted first-generation vehicle unit transfers have the documented frame. *)

From Verif Require Import Base Enums Chunks DDScalar Utf8 DDString DDRecord RawTypes Vu
  P_Scalar Props_Scalar P_Utf8 P_String Field P_Basic P_Record P_VuRecord Props_Layout Props_Overview Props_VuWrite
  P_OverviewWrite Props_VuActivities.

Lemma eat_inv n d b r : eat n d = Ok (b, r) -> d = b ++ r /\ length b = n.
Proof.
  unfold eat. destruct (Nat.ltb_spec (length d) n); cbn [negb guard bind]; [discriminate|].
  intros E. apply Ok_inj in E. injection E as <- <-. rewrite firstn_skipn, firstn_length. split; [reflexivity|lia].
Qed.

Lemma eat_records_inv {X} (un : bytes -> res X) n k : forall d xs r, eat_records un n k d = Ok (xs, r) ->
  exists bs, d = concat bs ++ r /\ length bs = k /\ Forall (fun b => length b = n) bs /\
    Forall2 (fun b x => un b = Ok x) bs xs.
Proof.
  induction k as [|k IH]; intros d xs r H; cbn [eat_records] in H.
  - apply Ok_inj in H. injection H as <- <-. exists []. repeat split; constructor.
  - apply bind_ok in H as ([b d1] & E & H). apply eat_inv in E as [-> Lb].
    apply bind_ok in H as (x & E & H). apply bind_ok in H as ([ys d2] & E2 & H).
    apply Ok_inj in H. injection H as <- <-. apply IH in E2 as (bs & -> & L & A & Q).
    exists (b :: bs). cbn [concat length]. rewrite app_assoc. repeat split; auto; constructor; auto.
Qed.

(** ** Overviews *)

(** The parts have the documented lengths; every card mentioned is a driver's, a
    workshop's or a company's. *)
Definition card_readable (kind : Z) : Prop := In kind [1; 2; 4].
Definition lock_readable (b : bytes) : Prop := card_readable (nth 80 b 0).
Definition control_readable (b : bytes) : Prop := card_readable (nth 5 b 0).

Lemma fcn_readable d : bytes_ok d -> length d = 18%nat ->
  ((exists n, unmarshal_full_card_number d = Ok n) <-> card_readable (nth 0 d 0)).
Proof.
  intros B L. pose proof (fcn_implements d B L) as Q. unfold f_fcn in Q. cbn [f_acc] in Q. unfold acc_fcn in Q.
  assert (X : existsb (Z.eqb (nth 0 d 0)) [1; 2; 4] = true <-> card_readable (nth 0 d 0)).
  { unfold card_readable. rewrite existsb_exists. split.
    - intros (y & I & E). apply Z.eqb_eq in E. now subst y.
    - intros I. exists (nth 0 d 0). split; auto. apply Z.eqb_refl. }
  rewrite <- X. destruct (unmarshal_full_card_number d) as [n|e|].
  - destruct Q as [Q _]. split; eauto.
  - split; [intros (n & N); discriminate|congruence].
  - destruct Q.
Qed.

Lemma time_reads b : length b = 4%nat -> exists t, unmarshal_time b = Ok t.
Proof. intros L. unfold unmarshal_time. rewrite L. cbn [Nat.eqb guard bind]. destruct (be b =? 0); eauto. Qed.

Lemma lock_readable_iff cm b : bytes_ok b -> length b = 98%nat ->
  ((exists l, unmarshal_lock cm b = Ok l) <-> lock_readable b).
Proof.
  intros B L. unfold unmarshal_lock, lock_readable.
  destruct (time_reads (sub b 0 4)) as (t1 & ->); [apply sub_length; lia|].
  destruct (time_reads (sub b 4 4)) as (t2 & ->); [apply sub_length; lia|].
  destruct (unmarshal_string_ok cm (sub b 8 36)) as (s1 & ->); [rewrite sub_length; lia|].
  destruct (unmarshal_string_ok cm (sub b 44 36)) as (s2 & ->); [rewrite sub_length; lia|].
  pose proof (fcn_readable (sub b 80 18) ltac:(now apply bytes_ok_sub) ltac:(apply sub_length; lia)) as Q.
  rewrite nth_sub in Q by lia. cbn [Nat.add] in Q. rewrite <- Q. cbn [bind].
  destruct (unmarshal_full_card_number (sub b 80 18)) as [n| |]; cbn [bind]; split; intros (y & E); try discriminate; eauto.
Qed.

Lemma control_readable_iff b : bytes_ok b -> length b = 31%nat ->
  ((exists c, unmarshal_vu_control b = Ok c) <-> control_readable b).
Proof.
  intros B L. unfold unmarshal_vu_control, control_readable.
  assert (C : exists t, unmarshal_control_type (sub b 0 1) = Ok t).
  { unfold unmarshal_control_type. rewrite sub_length by lia. cbn [Nat.eqb negb guard bind]. eauto. }
  destruct C as (k & ->).
  destruct (time_reads (sub b 1 4)) as (t1 & ->); [apply sub_length; lia|].
  destruct (time_reads (sub b 23 4)) as (t2 & ->); [apply sub_length; lia|].
  destruct (time_reads (sub b 27 4)) as (t3 & ->); [apply sub_length; lia|].
  pose proof (fcn_readable (sub b 5 18) ltac:(now apply bytes_ok_sub) ltac:(apply sub_length; lia)) as Q.
  rewrite nth_sub in Q by lia. cbn [Nat.add] in Q. rewrite <- Q. cbn [bind].
  destruct (unmarshal_full_card_number (sub b 5 18)) as [n| |]; cbn [bind]; split; intros (y & E); try discriminate; eauto.
Qed.

Lemma one_byte (b : bytes) : length b = 1%nat -> b = [nth 0 b 0].
Proof. destruct b as [|x [|? ?]]; try discriminate. reflexivity. Qed.

Lemma sub_parts_2 (b : bytes) n m : length b = (n + m)%nat -> b = sub b 0 n ++ sub b n m.
Proof. intros L. unfold sub. rewrite skipn_O, <- (firstn_skipn n b) at 1. f_equal. symmetry. apply firstn_all2. rewrite skipn_length. lia. Qed.

Lemma sub_parts_3 (b : bytes) n m k : length b = (n + m + k)%nat -> b = sub b 0 n ++ sub b n m ++ sub b (n + m) k.
Proof.
  intros L. rewrite (sub_parts_2 b n (m + k)) at 1 by lia. f_equal.
  rewrite (sub_parts_2 (sub b n (m + k)) m k) by (rewrite sub_length; lia). rewrite !sub_sub by lia. now rewrite Nat.add_0_r.
Qed.

Definition framed_overview (d : bytes) : Prop :=
  exists ms vc vin nation number now t_min t_max slots d_time d_card d_name locks controls signature,
    length ms = 194%nat /\ length vc = 194%nat /\ length vin = 17%nat /\ length number = 14%nat /\
    length now = 4%nat /\ length t_min = 4%nat /\ length t_max = 4%nat /\ length d_time = 4%nat /\
    length d_card = 18%nat /\ length d_name = 36%nat /\ length signature = 128%nat /\
    Forall (fun b => length b = 98%nat) locks /\ Forall (fun b => length b = 31%nat) controls /\
    d = overview_bytes ms vc vin nation number now t_min t_max slots d_time d_card d_name locks controls signature /\
    card_readable (nth 0 d_card 0) /\ Forall lock_readable locks /\ Forall control_readable controls.

Theorem C90_overview_accepted : forall cm d, bytes_ok d ->
  ((exists x, unmarshal_overview_gen1 cm d = Ok x) <-> framed_overview d).
Proof.
  intros cm d B. unfold framed_overview. split.
  - intros (x & H). unfold unmarshal_overview_gen1 in H. cbv zeta in H.
    apply bind_ok in H as ([ms d1] & E & H). apply eat_inv in E as [D0 L1].
    apply bind_ok in H as ([vc d2] & E & H). apply eat_inv in E as [-> L2].
    apply bind_ok in H as ([vin d3] & E & H). apply eat_inv in E as [-> L3].
    apply bind_ok in H as (vi & _ & H).
    apply bind_ok in H as ([vr d4] & E & H). apply eat_inv in E as [-> L4].
    apply bind_ok in H as (rg & _ & H).
    apply bind_ok in H as ([now d5] & E & H). apply eat_inv in E as [-> L5].
    apply bind_ok in H as (nw & _ & H).
    apply bind_ok in H as ([per d6] & E & H). apply eat_inv in E as [-> L6].
    apply bind_ok in H as (ta & _ & H). apply bind_ok in H as (tb & _ & H).
    apply bind_ok in H as ([sl d7] & E & H). apply eat_inv in E as [-> L7].
    apply bind_ok in H as ([act d8] & E & H). apply eat_inv in E as [-> L8].
    apply bind_ok in H as (da & _ & H). apply bind_ok in H as (db & Ec & H). apply bind_ok in H as (dd & _ & H).
    apply bind_ok in H as ([nl d9] & E & H). apply eat_inv in E as [-> L9].
    apply bind_ok in H as (u1 & _ & H). apply bind_ok in H as ([ys d10] & E & H).
    apply eat_records_inv in E as (ls & -> & N1 & A1 & Q1).
    apply bind_ok in H as ([nc d11] & E & H). apply eat_inv in E as [-> L10].
    apply bind_ok in H as (u2 & _ & H). apply bind_ok in H as ([zs d12] & E & H).
    apply eat_records_inv in E as (cs & -> & N2 & A2 & Q2).
    apply bind_ok in H as ([sg d13] & E & H). apply eat_inv in E as [-> L11].
    apply bind_ok in H as (u3 & G & _). apply guard_ok in G. apply Nat.eqb_eq in G. destruct d13; [|discriminate].
    rewrite app_nil_r in D0. subst d. pose proof B as B'. rewrite !bytes_ok_app in B'.
    destruct B' as (_ & _ & _ & _ & _ & _ & _ & Bact & Bnl & Bls & Bnc & Bcs & _).
    exists ms, vc, vin, (nth 0 vr 0), (sub vr 1 14), now, (sub per 0 4), (sub per 4 4), (nth 0 sl 0),
      (sub act 0 4), (sub act 4 18), (sub act 22 36), ls, cs, sg.
    do 3 (split; [assumption|]). split; [apply sub_length; lia|]. split; [assumption|].
    do 5 (split; [apply sub_length; lia|]). do 3 (split; [assumption|]). split.
    { unfold overview_bytes. rewrite <- (sub_parts_2 per 4 4) by lia. pose proof (sub_parts_3 act 4 18 36 ltac:(lia)) as PA. cbn [Nat.add] in PA. rewrite <- PA.
      rewrite <- (one_byte sl) by assumption.
      assert (V : [nth 0 vr 0] ++ sub vr 1 14 = vr).
      { rewrite (sub_parts_2 vr 1 14) at 3 by lia. f_equal.
        rewrite (one_byte (sub vr 0 1)) by (apply sub_length; lia). now rewrite nth_sub by lia. }
      rewrite V, N1, N2, !Z2Nat.id.
      - rewrite <- (one_byte nl), <- (one_byte nc) by assumption. reflexivity.
      - rewrite (one_byte nc) in Bnc by assumption. apply bytes_ok_cons in Bnc as [[? ?] _]. assumption.
      - rewrite (one_byte nl) in Bnl by assumption. apply bytes_ok_cons in Bnl as [[? ?] _]. assumption. }
    split; [apply fcn_readable; [now apply bytes_ok_sub|apply sub_length; lia|eauto]|]. split.
    + apply concat_ok in Bls. clear - A1 Q1 Bls. revert A1 Bls. induction Q1 as [|b y bs ys E Q IH]; intros A Bs; [constructor|].
      apply Forall_cons_iff in A as [A1 A2]. apply Forall_cons_iff in Bs as [B1 B2].
      constructor; [|auto]. apply (lock_readable_iff cm); eauto.
    + apply concat_ok in Bcs. clear - A2 Q2 Bcs. revert A2 Bcs. induction Q2 as [|b y bs ys E Q IH]; intros A Bs; [constructor|].
      apply Forall_cons_iff in A as [A1 A2]. apply Forall_cons_iff in Bs as [B1 B2].
      constructor; [|auto]. apply control_readable_iff; eauto.
  - intros (ms & vc & vin & na & nu & now & tm & tx & sl & dt & dc & dn & ls & cs & sg &
      L1 & L2 & L3 & L4 & L5 & L6 & L7 & L8 & L9 & L10 & L11 & FL & FC & -> & RD & RL & RC).
    pose proof B as B'. unfold overview_bytes in B'. rewrite !bytes_ok_app in B'.
    destruct B' as (_ & _ & _ & _ & _ & _ & _ & (_ & Bdc & _) & _ & Bls & _ & Bcs & _).
    apply concat_ok in Bls, Bcs.
    apply fcn_readable in RD as (db & Edb); [|assumption|assumption].
    assert (RL' : Forall (fun b => exists l, unmarshal_lock cm b = Ok l) ls).
    { clear - FL RL Bls. induction FL as [|b bs L FL IH]; [constructor|]. apply Forall_cons_iff in RL as [R1 R2], Bls as [B1 B2].
      constructor; [now apply lock_readable_iff|auto]. }
    assert (RC' : Forall (fun b => exists l, unmarshal_vu_control b = Ok l) cs).
    { clear - FC RC Bcs. induction FC as [|b bs L FL IH]; [constructor|]. apply Forall_cons_iff in RC as [R1 R2], Bcs as [B1 B2].
      constructor; [now apply control_readable_iff|auto]. }
    set (value := overview_bytes ms vc vin na nu now tm tx sl dt dc dn ls cs sg) in *.
    unfold unmarshal_overview_gen1. cbv zeta. unfold value at 1, overview_bytes. clearbody value.
    assert (V : length ([na] ++ nu) = 15%nat) by (rewrite app_length, L4; reflexivity).
    assert (T : length (tm ++ tx) = 8%nat) by (rewrite app_length, L6, L7; reflexivity).
    assert (D : length (dt ++ dc ++ dn) = 58%nat) by (rewrite !app_length, L8, L9, L10; reflexivity).
    rewrite (eat_part 194 ms) by exact L1. cbn [bind].
    rewrite (eat_part 194 vc) by exact L2. cbn [bind].
    rewrite (eat_part 17 vin) by exact L3. cbn [bind]. rewrite unmarshal_ia5_ok by lia. cbn [bind].
    rewrite (eat_part 15 ([na] ++ nu)) by exact V. cbn [bind].
    destruct (unmarshal_vreg_ok cm ([na] ++ nu) V) as (rg & ->). cbn [bind].
    rewrite (eat_part 4 now) by exact L5. cbn [bind]. destruct (time_reads now L5) as (t1 & ->). cbn [bind].
    rewrite (eat_part 8 (tm ++ tx)) by exact T. cbn [bind].
    assert (S1 : sub (tm ++ tx) 0 4 = tm) by cutg. assert (S2 : sub (tm ++ tx) 4 4 = tx) by cutg. rewrite S1, S2.
    destruct (time_reads tm L6) as (t2 & ->). destruct (time_reads tx L7) as (t3 & ->). cbn [bind].
    rewrite (eat_part 1 [sl]) by reflexivity. cbn [bind].
    rewrite (eat_part 58 (dt ++ dc ++ dn)) by exact D. cbn [bind].
    assert (S3 : sub (dt ++ dc ++ dn) 0 4 = dt) by cutg. assert (S4 : sub (dt ++ dc ++ dn) 4 18 = dc) by cutg.
    assert (S5 : sub (dt ++ dc ++ dn) 22 36 = dn) by cutg. rewrite S3, S4, S5, Edb.
    destruct (time_reads dt L8) as (t4 & ->). cbn [bind].
    destruct (unmarshal_string_ok cm dn) as (nm & ->); [lia|]. cbn [bind].
    rewrite (eat_part 1 [Z.of_nat (length ls)]) by reflexivity. cbn [bind nth]. rewrite Nat2Z.id.
    destruct (eat_records_all (unmarshal_lock cm) 98 ls ([Z.of_nat (length cs)] ++ concat cs ++ sg) FL RL') as (ys & Ey).
    destruct (eat_records_all unmarshal_vu_control 31 cs sg FC RC') as (zs & Ez).
    assert (G1 : (length (concat ls ++ [Z.of_nat (length cs)] ++ concat cs ++ sg) <? length ls * 98)%nat = false).
    { apply Nat.ltb_ge. rewrite app_length, (concat_length_uniform 98 ls FL). lia. }
    assert (G2 : (length (concat cs ++ sg) <? length cs * 31)%nat = false).
    { apply Nat.ltb_ge. rewrite app_length, (concat_length_uniform 31 cs FC). lia. }
    rewrite G1, Ey. cbn [negb guard bind].
    rewrite (eat_part 1 [Z.of_nat (length cs)]) by reflexivity. cbn [bind nth]. rewrite Nat2Z.id.
    rewrite G2, Ez. cbn [negb guard bind].
    assert (Es : eat 128 sg = Ok (sg, [])) by (pose proof (eat_part 128 sg [] L11) as Q; now rewrite app_nil_r in Q).
    rewrite Es. cbn [bind length Nat.eqb guard]. eauto.
Qed.
Print Assumptions C90_overview_accepted.

(** ** Days *)

Lemma be_count (b : bytes) n : bytes_ok b -> n = Z.to_nat (be b) -> num b = Z.of_nat n.
Proof. intros B ->. rewrite num_be, Z2Nat.id; [reflexivity|]. pose proof (be_range b B). lia. Qed.

Definition framed_day (d : bytes) : Prop :=
  exists date odometer n_iw iws n_changes changes n_places places n_conditions conditions signature,
    length date = 4%nat /\ length odometer = 3%nat /\ length n_iw = 2%nat /\ length n_changes = 2%nat /\
    length n_conditions = 2%nat /\ length signature = 128%nat /\
    num n_iw = Z.of_nat (length iws) /\ num n_changes = Z.of_nat (length changes) /\
    n_places = Z.of_nat (length places) /\ num n_conditions = Z.of_nat (length conditions) /\
    Forall (fun b => length b = 129%nat) iws /\ Forall (fun b => length b = 2%nat) changes /\
    Forall (fun b => length b = 28%nat) places /\ Forall (fun b => length b = 5%nat) conditions /\
    d = activities_bytes date odometer n_iw iws n_changes changes n_places places n_conditions conditions signature /\
    Forall iw_readable iws /\ Forall place_readable places.

Theorem C90_day_accepted : forall cm d, bytes_ok d ->
  ((exists x, unmarshal_activities_gen1 cm d = Ok x) <-> framed_day d).
Proof.
  intros cm d B. unfold framed_day. split.
  - intros (x & H). pose proof H as H0. unfold unmarshal_activities_gen1 in H. cbv zeta in H.
    apply bind_ok in H as ([da d1] & E & H). apply eat_inv in E as [D0 L1].
    apply bind_ok in H as (t1 & _ & H).
    apply bind_ok in H as ([od d2] & E & H). apply eat_inv in E as [-> L2].
    apply bind_ok in H as (t2 & _ & H).
    apply bind_ok in H as ([n1 d3] & E & H). apply eat_inv in E as [-> L3].
    apply bind_ok in H as ([xs1 d4] & E & H). apply eat_records_inv in E as (iws & -> & N1 & A1 & Q1).
    apply bind_ok in H as ([n2 d5] & E & H). apply eat_inv in E as [-> L4].
    apply bind_ok in H as ([xs2 d6] & E & H). apply eat_records_inv in E as (chs & -> & N2 & A2 & Q2).
    apply bind_ok in H as ([n3 d7] & E & H). apply eat_inv in E as [-> L5].
    apply bind_ok in H as ([xs3 d8] & E & H). apply eat_records_inv in E as (pls & -> & N3 & A3 & Q3).
    apply bind_ok in H as ([n4 d9] & E & H). apply eat_inv in E as [-> L6].
    apply bind_ok in H as ([xs4 d10] & E & H). apply eat_records_inv in E as (cds & -> & N4 & A4 & Q4).
    apply bind_ok in H as ([sg d11] & E & H). apply eat_inv in E as [-> L7].
    apply bind_ok in H as (u3 & G & _). apply guard_ok in G. apply Nat.eqb_eq in G. destruct d11; [|discriminate].
    rewrite app_nil_r in D0.
    assert (W : d = activities_bytes da od n1 iws n2 chs (nth 0 n3 0) pls n4 cds sg).
    { rewrite D0. unfold activities_bytes. now rewrite <- (one_byte n3). }
    clear D0. pose proof B as B'. rewrite W in B'. unfold activities_bytes in B'. rewrite !bytes_ok_app in B'.
    destruct B' as (_ & _ & B1 & _ & B2 & _ & B3 & _ & B4 & _ & _).
    assert (C3 : nth 0 n3 0 = Z.of_nat (length pls)).
    { rewrite N3, Z2Nat.id; [reflexivity|]. apply bytes_ok_cons in B3 as [[? ?] _]. assumption. }
    exists da, od, n1, iws, n2, chs, (nth 0 n3 0), pls, n4, cds, sg.
    do 6 (split; [assumption|]).
    split; [now apply be_count|]. split; [now apply be_count|]. split; [assumption|]. split; [now apply be_count|].
    do 4 (split; [assumption|]). split; [assumption|].
    rewrite W in H0, B.
    apply (C84_accepted_days_partial cm da od n1 iws n2 chs (nth 0 n3 0) pls n4 cds sg); auto; try (now apply be_count); eauto.
  - intros (da & od & n1 & iws & n2 & chs & n3 & pls & n4 & cds & sg & L1 & L2 & L3 & L4 & L5 & L6 & N1 & N2 & N3 & N4 &
      A1 & A2 & A3 & A4 & -> & R). apply C84_accepted_days_partial; auto.
Qed.
Print Assumptions C90_day_accepted.

(** Both readers accept something that is not trivial, and neither accepts it with
    one byte more. *)
Example C90_example :
  is_ok (unmarshal_overview_gen1 (fun _ b => b) (demo_overview 2)) = true /\
  is_ok (unmarshal_overview_gen1 (fun _ b => b) (demo_overview 2 ++ [0])) = false /\
  is_ok (unmarshal_activities_gen1 (fun _ b => b) (day 1 13)) = true /\
  is_ok (unmarshal_activities_gen1 (fun _ b => b) (day 1 13 ++ [0])) = false.
Proof. repeat split; vm_compute; reflexivity. Qed.
