(** C147: two downloads of one card in use. *)

From Verif Require Import Base Enums DDScalar Chunks CardActivity P_Scalar Props_Scalar Field P_Records Props_Activity Use Props_Use DDRecord CardRecords P_Basic P_Scanner P_Record Props_Newest.

(** Two days of messages say the same, or the second goes on from the first. *)
Definition same_day (r1 r2 : day) : Prop :=
  day_date r1 = day_date r2 /\ day_distance r1 = day_distance r2 /\
  map change_bits (day_changes r1) = map change_bits (day_changes r2).

Definition goes_on (r1 r2 : day) : Prop :=
  day_date r1 = day_date r2 /\ day_distance r1 = day_distance r2 /\
  exists w, map change_bits (day_changes r2) = map change_bits (day_changes r1) ++ w.

(** The days of both messages put together from the earlier and the later one. *)
Definition joins (first second : list day) : Prop :=
  exists old common1 last1 common2 last2 new,
    first = old ++ common1 ++ [last1] /\ second = common2 ++ [last2] ++ new /\
    Forall2 same_day common1 common2 /\ goes_on last1 last2.

(** ** What happened until the first download *)

Lemma history_more us more h d : history us = h ++ [d] ->
  exists d' t w, history (us ++ more) = h ++ d' :: t /\ d' = (fst d, snd d ++ w) /\ (t = [] \/ exists t' x, t = t' ++ [x]).
Proof.
  intros E. induction more as [|u more IH] using rev_ind.
  - exists d, [], []. rewrite !app_nil_r. split; [exact E|]. split; [now destruct d|now left].
  - destruct IH as (d' & t & w & H & D & T). rewrite app_assoc, history_snoc, H. destruct u as [b|v].
    + exists d', (t ++ [(b, [])]), w. cbn [note]. rewrite <- app_assoc. split; [reflexivity|]. split; [exact D|]. right. eauto.
    + destruct T as [T|(t' & x & T)]; subst t.
      * rewrite note_change. exists (fst d', snd d' ++ [v]), [], (w ++ [v]). split; [reflexivity|]. split; [|now left].
        subst d'. cbn [fst snd]. now rewrite app_assoc.
      * replace (h ++ d' :: t' ++ [x]) with ((h ++ d' :: t') ++ [x]) by (rewrite <- app_assoc; reflexivity). rewrite note_change.
        exists d', (t' ++ [(fst x, snd x ++ [v])]), w. rewrite <- app_assoc. split; [reflexivity|]. split; [exact D|]. right. eauto.
Qed.

Lemma split_at {X} (a b c e : list X) : a ++ b = c ++ e -> (length a <= length c)%nat -> exists m, c = a ++ m /\ b = m ++ e.
Proof.
  revert c. induction a as [|x a IH]; intros c E L; [exists c; auto|]. destruct c as [|y c]; [cbn in L; lia|].
  cbn in E. injection E as E1 E2. subst y. destruct (IH c E2 ltac:(cbn in L; lia)) as (m & -> & ->). exists m. auto.
Qed.

Lemma shows_same l : forall a b, Forall2 shows l a -> Forall2 shows l b -> Forall2 same_day a b.
Proof.
  induction l as [|d l IH]; intros a b A B; inversion A as [|? r1 ? a' S1 A']; inversion B as [|? r2 ? b' S2 B']; subst; constructor; auto.
  destruct S1 as (_ & D1 & K1 & C1), S2 as (_ & D2 & K2 & C2). unfold same_day. rewrite D1 in D2. apply Ok_inj in D2. repeat split; congruence.
Qed.

Lemma shows_on d w r1 r2 : shows d r1 -> shows (fst d, snd d ++ w) r2 -> goes_on r1 r2.
Proof.
  intros (_ & D1 & K1 & C1) (_ & D2 & K2 & C2). cbn [fst snd] in *. unfold goes_on. rewrite D1 in D2. apply Ok_inj in D2.
  split; [congruence|]. split; [congruence|]. rewrite C1, C2, filter_app. eauto.
Qed.

(** ** C147 *)

(** The card is downloaded after [us] and again after [more].  What happened from the
    last day of the first download on fits on the card: then no day is missing between
    the two messages and they agree on the days that both hold. *)
Theorem C147_joins_partial : forall buf us more, bytes_ok buf -> (24 <= length buf)%nat -> Z.of_nat (length buf) < 65536 ->
  Forall usage_ok (us ++ more) -> Forall (fun d => (size d + 12 <= length buf)%nat) (history (us ++ more)) -> history us <> [] ->
  (forall a d b, history (us ++ more) = a ++ d :: b -> (total a mod length buf + 4 <= length buf)%nat) ->
  (length (history (us ++ more)) <= 365)%nat ->
  (total (skipn (length (history us) - 1) (history (us ++ more))) <= length buf)%nat ->
  exists s1 a1 s2 a2, use buf us = Some s1 /\ unmarshal_activity (file_of s1) = Ok a1 /\
    use buf (us ++ more) = Some s2 /\ unmarshal_activity (file_of s2) = Ok a2 /\ joins (act_days a1) (act_days a2).
Proof.
  intros buf us more B L LZ U SZ NE X Y FT. destruct (snoc_cases (history us)) as [E|(h & d & E)]; [contradiction|].
  destruct (history_more us more h d E) as (d' & t & w & E' & D & _). rewrite E' in SZ, X, Y, FT.
  assert (NE2 : history (us ++ more) <> []) by (rewrite E'; destruct h; discriminate).
  assert (SD : (size d <= size d')%nat) by (subst d'; unfold size; cbn [snd]; rewrite app_length; lia).
  assert (FT' : (total (d' :: t) <= length buf)%nat).
  { rewrite E, app_length in FT. cbn [length] in FT. replace (length h + 1 - 1)%nat with (length h) in FT by lia.
    rewrite skipn_app, Nat.sub_diag, skipn_all in FT. exact FT. }
  destruct (C145_nothing_lost_partial buf us) as (g1 & t1 & s1 & a1 & H1 & _ & G1 & U1 & R1 & S1); auto.
  { now apply Forall_app in U. }
  { rewrite E. apply Forall_app in SZ as [Z1 Z2]. inversion Z2; subst. apply Forall_app. split; auto. constructor; auto. cbn in *. lia. }
  { rewrite E. intros a x b Q. destruct b as [|y b _] using rev_ind.
    - apply app_inj_tail in Q as [-> _]. eapply X. reflexivity.
    - rewrite app_comm_cons, app_assoc in Q. apply app_inj_tail in Q as [-> _]. apply (X a x (b ++ d' :: t)).
      now rewrite <- app_assoc. }
  { rewrite app_length in Y. cbn [length] in Y. rewrite E, app_length. cbn [length]. lia. }
  destruct (C145_nothing_lost_partial buf (us ++ more)) as (g2 & t2 & s2 & a2 & H2 & T2 & G2 & U2 & R2 & S2); auto;
    try (rewrite E'; assumption).
  exists s1, a1, s2, a2. do 4 (split; [assumption|]). rewrite E in H1. rewrite E' in H2.
  (* the second download starts no later than at the last day of the first *)
  assert (P2 : (length g2 <= length h)%nat).
  { destruct G2 as [->|(g & x & -> & G)]; [cbn; lia|]. destruct (Nat.le_gt_cases (length (g ++ [x])) (length h)) as [C|C]; [exact C|exfalso].
    rewrite app_length in C. cbn [length] in C. rewrite <- app_assoc in H2. cbn [List.app] in H2.
    destruct (split_at h (d' :: t) g (x :: t2) H2 ltac:(lia)) as (m & _ & Q). rewrite Q, total_app in FT'. lia. }
  destruct (split_at g2 t2 h (d' :: t) (eq_sym H2) P2) as (m2 & Eh & Et2).
  (* the first download starts no later than the second *)
  assert (P1 : (length g1 <= length g2)%nat).
  { destruct G1 as [->|(g & x & -> & G)]; [cbn; lia|]. destruct (Nat.le_gt_cases (length (g ++ [x])) (length g2)) as [C|C]; [exact C|exfalso].
    rewrite app_length in C. cbn [length] in C. rewrite Eh, <- !app_assoc in H1. cbn [List.app] in H1.
    destruct (split_at g2 (m2 ++ [d]) g (x :: t1) H1 ltac:(lia)) as (m & _ & Q).
    assert (total (x :: t1) <= total (m2 ++ [d]))%nat by (rewrite Q, total_app; lia).
    rewrite Et2, total_app in T2. rewrite total_app, total_one in *. rewrite (total_cons d') in T2. lia. }
  rewrite Eh, <- app_assoc in H1. destruct (split_at g1 t1 g2 (m2 ++ [d]) (eq_sym H1) P1) as (m1 & _ & Et1).
  rewrite Et1 in S1. rewrite Et2 in S2.
  apply Forall2_app_inv_l in S1 as (o & c1 & S11 & S12 & ->). apply Forall2_app_inv_l in S12 as (k1 & e1 & S12 & S13 & ->).
  apply Forall2_app_inv_l in S2 as (k2 & e2 & S21 & S22 & Q2).
  inversion S13 as [|? l1 ? n1 L1 N1]; subst. inversion N1; subst. inversion S22 as [|? l2 ? n2 L2 N2]; subst.
  exists o, k1, l1, k2, l2, n2. split; [reflexivity|]. split; [exact Q2|]. split; [eapply shows_same; eauto|eapply shows_on; eauto].
Qed.
Print Assumptions C147_joins_partial.

(** If it does not fit, the second message holds only days that started after the
    first download. *)
Theorem C147_gap_partial : forall buf us more, bytes_ok buf -> (24 <= length buf)%nat -> Z.of_nat (length buf) < 65536 ->
  Forall usage_ok (us ++ more) -> Forall (fun d => (size d + 12 <= length buf)%nat) (history (us ++ more)) -> history us <> [] ->
  (forall a d b, history (us ++ more) = a ++ d :: b -> (total a mod length buf + 4 <= length buf)%nat) ->
  (length (history (us ++ more)) <= 365)%nat ->
  (length buf < total (skipn (length (history us) - 1) (history (us ++ more))))%nat ->
  exists gone there s2 a2, skipn (length (history us)) (history (us ++ more)) = gone ++ there /\
    use buf (us ++ more) = Some s2 /\ unmarshal_activity (file_of s2) = Ok a2 /\ Forall2 shows there (act_days a2).
Proof.
  intros buf us more B L LZ U SZ NE X Y FT. destruct (snoc_cases (history us)) as [E|(h & d & E)]; [contradiction|].
  destruct (history_more us more h d E) as (d' & t & w & E' & D & _).
  assert (NE2 : history (us ++ more) <> []) by (rewrite E'; destruct h; discriminate).
  destruct (C145_nothing_lost_partial buf (us ++ more)) as (g2 & t2 & s2 & a2 & H2 & T2 & G2 & U2 & R2 & S2); auto.
  rewrite E' in H2, FT |- *. rewrite E, app_length in *. cbn [length] in *. replace (length h + 1 - 1)%nat with (length h) in FT by lia.
  rewrite skipn_app, Nat.sub_diag, skipn_all in FT. cbn [skipn List.app] in FT.
  destruct (Nat.le_gt_cases (length g2) (length h)) as [C|C].
  - exfalso. destruct (split_at g2 t2 h (d' :: t) (eq_sym H2) C) as (m & _ & Q). rewrite Q, total_app in T2. lia.
  - replace (h ++ d' :: t) with ((h ++ [d']) ++ t) in * by (rewrite <- app_assoc; reflexivity).
    destruct (split_at (h ++ [d']) t g2 t2 H2 ltac:(rewrite app_length; cbn; lia)) as (m & _ & Q).
    exists m, t2, s2, a2. split; auto. replace (length h + 1)%nat with (length (h ++ [d'])) by (rewrite app_length; cbn; lia).
    rewrite skipn_app, Nat.sub_diag, skipn_all. exact Q.
Qed.
Print Assumptions C147_gap_partial.

Lemma sample_usage x : 0 <= x < 256 -> usage_ok (Day (sample_fixed x)).
Proof. intros H. split; [repeat constructor; cbn; lia|]. split; [reflexivity|]. repeat constructor; cbn; lia. Qed.

(** Not all downloads join.  The second one is empty, since the newest day starts two
    bytes before the end of the string. *)
Theorem C147_joins_refuted : exists buf us more s1 a1 s2 a2, bytes_ok buf /\ (24 <= length buf)%nat /\ Z.of_nat (length buf) < 65536 /\
  Forall usage_ok (us ++ more) /\ Forall (fun d => (size d + 12 <= length buf)%nat) (history (us ++ more)) /\ history us <> [] /\
  (length (history (us ++ more)) <= 365)%nat /\
  (total (skipn (length (history us) - 1) (history (us ++ more))) <= length buf)%nat /\
  use buf us = Some s1 /\ unmarshal_activity (file_of s1) = Ok a1 /\ length (act_days a1) = 2%nat /\
  use buf (us ++ more) = Some s2 /\ unmarshal_activity (file_of s2) = Ok a2 /\ ~ joins (act_days a1) (act_days a2).
Proof.
  exists (zeros 30), [Day (sample_fixed 1); Change 2053; Day (sample_fixed 2)], [Change 2054; Day (sample_fixed 3)].
  do 4 eexists. split; [apply bytes_okb_ok; reflexivity|]. split; [vm_compute; lia|]. split; [reflexivity|].
  split; [repeat constructor; try apply sample_usage; try lia|]. split; [repeat constructor; vm_compute; lia|].
  split; [vm_compute; congruence|]. split; [vm_compute; lia|]. split; [vm_compute; lia|].
  split; [vm_compute; reflexivity|]. split; [vm_compute; reflexivity|]. split; [reflexivity|].
  split; [vm_compute; reflexivity|]. split; [vm_compute; reflexivity|].
  intros (o & c1 & l1 & c2 & l2 & n & _ & Q & _). cbn [act_days] in Q. destruct c2; discriminate Q.
Qed.
Print Assumptions C147_joins_refuted.

(** The first download has days 1 and 2, the second 2 and 3. *)
Example C147_example : let us := [Day (sample_fixed 1); Change 2053; Day (sample_fixed 2)] in let more := [Day (sample_fixed 3); Change 2055] in
  Forall usage_ok (us ++ more) /\ Forall (fun d => (size d + 12 <= length (zeros 30))%nat) (history (us ++ more)) /\
  (forall a d b, history (us ++ more) = a ++ d :: b -> (total a mod length (zeros 30) + 4 <= length (zeros 30))%nat) /\
  (total (skipn (length (history us) - 1) (history (us ++ more))) <= length (zeros 30))%nat /\
  exists s1 a1 s2 a2, use (zeros 30) us = Some s1 /\ unmarshal_activity (file_of s1) = Ok a1 /\
    use (zeros 30) (us ++ more) = Some s2 /\ unmarshal_activity (file_of s2) = Ok a2 /\
    map (fun r => option_map ts_seconds (day_date r)) (act_days a1) = [Some 1; Some 2] /\
    map (fun r => option_map ts_seconds (day_date r)) (act_days a2) = [Some 2; Some 3].
Proof.
  cbv zeta. split; [repeat constructor; try apply sample_usage; try lia|]. split; [repeat constructor; vm_compute; lia|].
  split; [exact (proj1 (proj2 (proj2 (proj2 C145_example))))|]. split; [vm_compute; lia|].
  do 4 eexists. split; [vm_compute; reflexivity|]. split; [vm_compute; reflexivity|]. split; [vm_compute; reflexivity|].
  split; [vm_compute; reflexivity|]. split; reflexivity.
Qed.

(** ** Records that are stored by index *)

Lemma nonempty_length {X} (l : list X) : l <> [] <-> length l <> 0%nat.
Proof. destruct l; cbn; split; congruence. Qed.

Lemma stored_app a b : forall k l, l <> [] -> stored_from k (a ++ b) l = stored_from (k + length a) b (stored_from k a l).
Proof.
  induction a as [|x a IH]; intros k l N; cbn [List.app stored_from length]; [now rewrite Nat.add_0_r|].
  assert (L : length l <> 0%nat) by now apply nonempty_length.
  rewrite IH. { f_equal. lia. } apply nonempty_length. rewrite replace_length; auto. now apply Nat.mod_upper_bound.
Qed.

(** A place to which nothing was stored. *)
Lemma stored_kept rs : forall k l j, l <> [] -> (forall i, (i < length rs)%nat -> j <> ((k + i) mod length l)%nat) ->
  nth j (stored_from k rs l) [] = nth j l [].
Proof.
  induction rs as [|r rs IH] using rev_ind; intros k l j N K; [reflexivity|]. rewrite app_length in K. cbn [length] in K.
  assert (L : length l <> 0%nat) by now apply nonempty_length.
  rewrite stored_snoc by auto. rewrite replace_other; [|rewrite stored_length by auto; now apply Nat.mod_upper_bound|apply K; lia].
  apply IH; auto. intros i I. apply K. lia.
Qed.

(** Both messages hold the same record at each index to which nothing was stored in between. *)
Definition agree {R} (n : nat) (rs more : list bytes) (first second : list R) : Prop :=
  length first = n /\ length second = n /\
  forall j, (j < n)%nat -> (forall i, (i < length more)%nat -> j <> ((length rs + i) mod n)%nat) -> nth_error first j = nth_error second j.

Lemma agree_read {R} (read : bytes -> res R) places rs more first second : places <> [] ->
  map_res read (stored_from 0 rs places) = Ok first -> map_res read (stored_from 0 (rs ++ more) places) = Ok second ->
  agree (length places) rs more first second.
Proof.
  intros N A B. apply map_res_ok in A, B.
  assert (LEN : forall l (x : list R), Forall2 (fun c r => read c = Ok r) l x -> length x = length l) by (intros l x H; induction H; cbn; auto).
  assert (AT : forall l (x : list R), Forall2 (fun c r => read c = Ok r) l x -> forall j, (j < length l)%nat ->
    exists r, read (nth j l []) = Ok r /\ nth_error x j = Some r).
  { intros l x H. induction H as [|c r l x Y H IH]; intros j J; [cbn in J; lia|]. destruct j as [|j]; [eauto|].
    cbn [nth nth_error]. apply IH. cbn in J. lia. }
  split; [rewrite (LEN _ _ A), stored_length; auto|]. split; [rewrite (LEN _ _ B), stored_length; auto|]. intros j J K.
  destruct (AT _ _ A j ltac:(rewrite stored_length; auto)) as (r1 & R1 & ->). destruct (AT _ _ B j ltac:(rewrite stored_length; auto)) as (r2 & R2 & ->).
  assert (N1 : stored_from 0 rs places <> []) by (apply nonempty_length; rewrite stored_length by auto; now apply nonempty_length).
  rewrite stored_app, stored_kept, R1 in R2 by (auto; rewrite stored_length by auto; exact K). congruence.
Qed.

(** How the readers of such files come to their records. *)
Lemma whole_read w pw places rs : (0 < w)%nat -> in_use pw w places rs ->
  chunks w (skipn pw (indexed_file pw places rs)) = stored_from 0 rs places.
Proof. intros W I. destruct (file_parts pw w places rs W I) as (_ & _ & _ & -> & ->). reflexivity. Qed.

Lemma in_use_whole pw w places rs : (0 < w)%nat -> in_use pw w places rs ->
  bytes_ok (indexed_file pw places rs) /\ bytes_ok (skipn pw (indexed_file pw places rs)).
Proof. intros W I. destruct (file_parts pw w places rs W I) as (H & _). auto using bytes_ok_skipn. Qed.

Theorem C147_records : forall places rs more,
  (forall x1 x2, in_use 1 10 places rs -> in_use 1 10 places (rs ++ more) ->
     unmarshal_places (indexed_file 1 places rs) = Ok x1 -> unmarshal_places (indexed_file 1 places (rs ++ more)) = Ok x2 ->
     agree (length places) rs more (ps_records x1) (ps_records x2)) /\
  (forall x1 x2, in_use 2 21 places rs -> in_use 2 21 places (rs ++ more) ->
     unmarshal_places_g2 (indexed_file 2 places rs) = Ok x1 -> unmarshal_places_g2 (indexed_file 2 places (rs ++ more)) = Ok x2 ->
     agree (length places) rs more (ps2_records x1) (ps2_records x2)) /\
  (forall x1 x2, in_use 2 5 places rs -> in_use 2 5 places (rs ++ more) ->
     unmarshal_conditions_g2 (indexed_file 2 places rs) = Ok x1 -> unmarshal_conditions_g2 (indexed_file 2 places (rs ++ more)) = Ok x2 ->
     agree (length places) rs more (co2_records x1) (co2_records x2)) /\
  (forall cm x1 x2, in_use 2 31 places rs -> in_use 2 31 places (rs ++ more) ->
     unmarshal_vehicles cm (indexed_file 2 places rs) = Ok x1 -> unmarshal_vehicles cm (indexed_file 2 places (rs ++ more)) = Ok x2 ->
     agree (length places) rs more (vs_records x1) (vs_records x2)) /\
  (forall cm x1 x2, in_use 2 48 places rs -> in_use 2 48 places (rs ++ more) ->
     unmarshal_vehicles_g2 cm (indexed_file 2 places rs) = Ok x1 -> unmarshal_vehicles_g2 cm (indexed_file 2 places (rs ++ more)) = Ok x2 ->
     agree (length places) rs more (vs2_records x1) (vs2_records x2)) /\
  (forall x1 x2, in_use 2 18 places rs -> in_use 2 18 places (rs ++ more) ->
     unmarshal_gnss_places (indexed_file 2 places rs) = Ok x1 -> unmarshal_gnss_places (indexed_file 2 places (rs ++ more)) = Ok x2 ->
     agree (length places) rs more (gps_records x1) (gps_records x2)).
Proof.
  intros places rs more.
  assert (PL : forall r x, in_use 1 10 places r -> unmarshal_places (indexed_file 1 places r) = Ok x ->
    map_res unmarshal_place (stored_from 0 r places) = Ok (ps_records x)).
  { intros r x I U. rewrite <- (whole_read 10 1 places r) by (auto; lia). destruct (in_use_whole 1 10 places r ltac:(lia) I).
    unfold unmarshal_places in U. apply bind_ok in U as ([] & _ & U). apply Ok_inj in U. subst x. cbn [ps_records].
    apply (map_total unmarshal_place append_place 10 (fun c => mkPlace c None 0 None 0 None [] 0)); auto using place_implements; lia. }
  assert (P2 : forall r x, in_use 2 21 places r -> unmarshal_places_g2 (indexed_file 2 places r) = Ok x ->
    map_res unmarshal_place_g2 (stored_from 0 r places) = Ok (ps2_records x)).
  { intros r x I U. rewrite <- (whole_read 21 2 places r) by (auto; lia). destruct (in_use_whole 2 21 places r ltac:(lia) I).
    unfold unmarshal_places_g2 in U. apply bind_ok in U as ([] & _ & U). apply Ok_inj in U. subst x. cbn [ps2_records].
    apply (map_total unmarshal_place_g2 append_place_g2 21 (fun c => mkPlace2 c None 0 None 0 None [] 0 None)); auto using place_g2_implements; lia. }
  assert (CO : forall r x, in_use 2 5 places r -> unmarshal_conditions_g2 (indexed_file 2 places r) = Ok x ->
    map_res unmarshal_spec_cond (stored_from 0 r places) = Ok (co2_records x)).
  { intros r x I U. rewrite <- (whole_read 5 2 places r) by (auto; lia). destruct (in_use_whole 2 5 places r ltac:(lia) I).
    unfold unmarshal_conditions_g2 in U. apply bind_ok in U as ([] & _ & U). apply Ok_inj in U. subst x. cbn [co2_records].
    apply (collect_ok_total _ append_spec_cond 5); [apply spec_cond_implements|apply chunks_ok; [lia|auto]|apply chunks_each; lia]. }
  assert (VE : forall cm r x, in_use 2 31 places r -> unmarshal_vehicles cm (indexed_file 2 places r) = Ok x ->
    map_res (unmarshal_card_vehicle cm) (stored_from 0 r places) = Ok (vs_records x)).
  { intros cm r x I U. rewrite <- (whole_read 31 2 places r) by (auto; lia).
    unfold unmarshal_vehicles in U. apply bind_ok in U as ([] & _ & U). apply bind_ok in U as (l & M & U). apply Ok_inj in U. now subst x. }
  assert (V2 : forall cm r x, in_use 2 48 places r -> unmarshal_vehicles_g2 cm (indexed_file 2 places r) = Ok x ->
    map_res (unmarshal_card_vehicle_g2 cm) (stored_from 0 r places) = Ok (vs2_records x)).
  { intros cm r x I U. rewrite <- (whole_read 48 2 places r) by (auto; lia).
    unfold unmarshal_vehicles_g2 in U. apply bind_ok in U as ([] & _ & U). apply bind_ok in U as (l & M & U). apply Ok_inj in U. now subst x. }
  assert (GN : forall r x, in_use 2 18 places r -> unmarshal_gnss_places (indexed_file 2 places r) = Ok x ->
    map_res unmarshal_gnss_record (stored_from 0 r places) = Ok (gps_records x)).
  { intros r x I U. rewrite <- (whole_read 18 2 places r) by (auto; lia).
    unfold unmarshal_gnss_places in U. apply bind_ok in U as ([] & _ & U). apply bind_ok in U as ([] & _ & U).
    apply bind_ok in U as (l & C & U). apply bind_ok in U as (rr & M & U). apply Ok_inj in U. subst x. cbn [gps_records].
    destruct (scan_fixed_chunks 18 (skipn 2 (indexed_file 2 places r))) as (l' & C' & N). { pose proof max_eq. lia. }
    rewrite C in C'. apply Ok_inj in C'. subst l'. now rewrite map_res_fst, N in M. }
  split; [|split; [|split; [|split; [|split]]]]; intros;
    match goal with I : in_use _ _ places rs |- _ => destruct I as (? & ? & ? & ? & ?) eqn:EI; clear EI end;
    eapply agree_read; eauto using PL, P2, CO, VE, V2, GN.
Qed.
Print Assumptions C147_records.

(** Vehicle units, in a file of at most 409 records (cf. C146). *)
Theorem C147_units_partial : forall places rs more x1 x2, in_use 2 10 places rs -> in_use 2 10 places (rs ++ more) -> (length places <= 409)%nat ->
  unmarshal_units_used (indexed_file 2 places rs) = Ok x1 -> unmarshal_units_used (indexed_file 2 places (rs ++ more)) = Ok x2 ->
  agree (length places) rs more (uu_records x1) (uu_records x2).
Proof.
  intros places rs more x1 x2 I1 I2 Q.
  assert (UN : forall r x, in_use 2 10 places r -> unmarshal_units_used (indexed_file 2 places r) = Ok x ->
    map_res (fun c => unmarshal_unit_record (c, c)) (stored_from 0 r places) = Ok (uu_records x)).
  { intros r x I U. rewrite <- (whole_read 10 2 places r) by (auto; lia). destruct (file_parts 2 10 places r ltac:(lia) I) as (B & L & _).
    unfold unmarshal_units_used in U. apply bind_ok in U as ([] & _ & U). apply bind_ok in U as ([] & _ & U).
    apply bind_ok in U as (l & C & U). apply bind_ok in U as (rr & M & U). apply Ok_inj in U. subst x. cbn [uu_records].
    rewrite scan_safe_unchanged in C; [|lia|lia|apply (scan_safe_whole 10 _ (length places)); rewrite ?skipn_length; lia].
    apply Ok_inj in C. subst l. now rewrite map_res_pairs in M. }
  intros U1 U2. apply (agree_read (fun c => unmarshal_unit_record (c, c))); auto. destruct I1 as (_ & _ & N & _). exact N.
Qed.
Print Assumptions C147_units_partial.

(** Three places, two records and two more: the second one stays where it was. *)
Example C147_records_example :
  let odo rs := match unmarshal_places (indexed_file 1 (repeat (pl 0) 3) rs) with Ok x => map pl_odometer (ps_records x) | _ => [] end in
  in_use 1 10 (repeat (pl 0) 3) [pl 1; pl 2] /\ in_use 1 10 (repeat (pl 0) 3) [pl 1; pl 2; pl 3; pl 4] /\
  odo [pl 1; pl 2] = [1; 2; 0] /\ odo [pl 1; pl 2; pl 3; pl 4] = [4; 2; 3].
Proof.
  cbv zeta. split; [|split; [|split; reflexivity]]; (unfold in_use; split; [|split; [|split; [|split]]]; try discriminate);
    repeat constructor; lia.
Qed.
