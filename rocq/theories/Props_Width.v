(** C108: reading files does not depend on the width of Go's int. *)

From Verif Require Import Base Enums Chunks DDScalar RawTypes RawCard Infer Cert DriverCard Vu Verify Api P_Vu Props_Dump Width.

(** Somewhere in the data, two bytes each for the size and the number of records
    announce at least [K] bytes. *)
Definition announces (K : Z) (d : bytes) : Prop :=
  exists i, (i + 4 <= length d)%nat /\ K <= be (sub d i 2) * be (sub d (i + 2) 2).

Lemma sub_skipn2 (d : bytes) k i n : sub (skipn k d) i n = sub d (k + i) n.
Proof. unfold sub. now rewrite skipn_skipn, Nat.add_comm. Qed.

Lemma announces_skipn K k d : announces K (skipn k d) -> announces K d.
Proof.
  intros (i & L & H). exists (k + i)%nat. rewrite skipn_length in L. rewrite !sub_skipn2 in H.
  rewrite Nat.add_assoc in H. split; [lia|exact H].
Qed.

Lemma announces_sub K d i n : announces K (sub d i n) -> announces K d.
Proof.
  intros (j & L & H). exists (i + j)%nat. pose proof (sub_length_le d i n) as L1.
  assert (L2 : (length (sub d i n) <= length d - i)%nat) by (unfold sub; rewrite firstn_length, skipn_length; lia).
  rewrite !sub_sub, Nat.add_assoc in H by lia. split; [lia|exact H].
Qed.

Lemma int_small w z : 1 <= w -> - 2 ^ (w - 1) <= z < 2 ^ (w - 1) -> int w z = z.
Proof.
  intros W H. unfold int. assert (E : 2 ^ w = 2 * 2 ^ (w - 1)).
  { replace w with (Z.succ (w - 1)) at 1 by lia. rewrite Z.pow_succ_r by lia. reflexivity. }
  rewrite Z.mod_small by lia. lia.
Qed.

Section Agree.
Variables (w K : Z).
Hypothesis W : 1 <= w.
Hypothesis K0 : 0 <= K.

Notation M := (2 ^ (w - 1)).

Definition fits (d : bytes) : Prop := bytes_ok d /\ len d + K + 16777216 < M.

Lemma small z : 0 <= z < M -> int w z = z.
Proof. intros H. apply int_small; auto. lia. Qed.

Lemma from_eq d o : 0 <= o -> from_w d o = from d o.
Proof. intros H. unfold from_w, from. destruct (Z.leb_spec 0 o); [reflexivity|lia]. Qed.

(** The two results of a size computation: the same, or an array announces too much,
    and then the first is not a size within the data. *)
Definition same_size (d : bytes) (r r' : res Z) : Prop :=
  r' = r \/ announces K d /\ forall n, r = Ok n -> len d < n.

Definition same {A} (d : bytes) (r r' : res A) : Prop := r' = r \/ announces K d /\ forall x, r <> Ok x.

Lemma skip_same : forall n d o, fits d -> 0 <= o -> same_size d (skip_record_arrays n d o) (skip_record_arrays_w w n d o).
Proof.
  induction n as [|n IH]; intros d o [B H] O; cbn [skip_record_arrays skip_record_arrays_w]; [now left|].
  unfold size_of_record_array, size_of_record_array_w. rewrite from_eq by auto. unfold from.
  destruct (Z.leb_spec o (len d)) as [L|L]; [|now left]. cbn [bind].
  destruct (Nat.ltb_spec (length (skipn (Z.to_nat o) d)) 5) as [G|G]; cbn [negb guard bind]; [now left|].
  rewrite !sub_skipn2. set (a := be (sub d (Z.to_nat o + 1) 2)). set (b := be (sub d (Z.to_nat o + 3) 2)).
  assert (A : 0 <= a) by apply be_range, bytes_ok_sub, B.
  assert (B' : 0 <= b) by apply be_range, bytes_ok_sub, B.
  assert (P : 0 <= a * b) by lia.
  destruct (Z.lt_ge_cases (a * b) K) as [C|C].
  - rewrite (small (a * b)), (small (5 + a * b)), (small (o + (5 + a * b))) by lia. apply IH; [now split|lia].
  - assert (AN : announces K d).
    { exists (Z.to_nat o + 1)%nat. rewrite skipn_length in G. replace (Z.to_nat o + 1 + 2)%nat with (Z.to_nat o + 3)%nat by lia. split; [lia|exact C]. }
    destruct (Z.le_gt_cases (o + (5 + a * b)) (len d)) as [Q|Q].
    + rewrite (small (a * b)), (small (5 + a * b)), (small (o + (5 + a * b))) by lia. apply IH; [now split|lia].
    + right. split; auto. intros m E. destruct n as [|n]; cbn [skip_record_arrays] in E.
      * apply Ok_inj in E. lia.
      * unfold size_of_record_array, from in E. destruct (Z.leb_spec (o + (5 + a * b)) (len d)); [lia|discriminate].
Qed.

Lemma number_eq {X} n d o (k k' : Z -> res X) : bytes_ok d -> 0 <= o ->
  (forall v, 0 <= v < 256 ^ Z.of_nat n -> o <= len d -> k' v = k v) ->
  (let* v := number_at_w n d o in k' v) = (let* v := number_at n d o in k v).
Proof.
  intros B O H. unfold number_at_w, number_at. rewrite from_eq by auto. unfold from.
  destruct (Z.leb_spec o (len d)) as [L|L]; [|reflexivity]. cbn [bind].
  destruct (Nat.ltb_spec (length (skipn (Z.to_nat o) d)) n) as [G|G]; cbn [negb guard bind]; [reflexivity|].
  apply H; auto. pose proof (be_range (sub (skipn (Z.to_nat o) d) 0 n) (bytes_ok_sub _ _ _ (bytes_ok_skipn _ _ B))) as R.
  rewrite sub_length in R by lia. exact R.
Qed.

Lemma step_eq o k n size : 0 <= o -> 0 <= k -> 0 <= n * size -> o + k + n * size < M -> step_w w o k n size = o + k + n * size.
Proof. intros. unfold step_w. rewrite (small (o + k)), (small (n * size)), small by lia. reflexivity. Qed.

Lemma gen1_sizes d : fits d ->
  size_overview_gen1_w w d = size_overview_gen1 d /\ size_activities_gen1_w w d = size_activities_gen1 d /\
  size_events_gen1_w w d = size_events_gen1 d /\ size_speed_gen1_w w d = size_speed_gen1 d /\
  size_technical_gen1_w w d = size_technical_gen1 d.
Proof.
  intros [B H]. pose proof (len_nonneg d) as N.
  unfold size_overview_gen1_w, size_overview_gen1, size_activities_gen1_w, size_activities_gen1, size_events_gen1_w, size_events_gen1,
    size_speed_gen1_w, size_speed_gen1, size_technical_gen1_w, size_technical_gen1.
  repeat split.
  - apply number_eq; [auto|lia|]. intros a A _. change (256 ^ Z.of_nat 1) with 256 in A. rewrite step_eq by lia.
    apply number_eq; [auto|lia|]. intros b B' L. change (256 ^ Z.of_nat 1) with 256 in B'. rewrite step_eq by lia. rewrite small by lia. f_equal; lia.
  - apply number_eq; [auto|lia|]. intros a A _. change (256 ^ Z.of_nat 2) with 65536 in A. rewrite step_eq by lia.
    apply number_eq; [auto|lia|]. intros b B' L. change (256 ^ Z.of_nat 2) with 65536 in B'. rewrite step_eq by lia.
    apply number_eq; [auto|lia|]. intros c C L'. change (256 ^ Z.of_nat 1) with 256 in C. rewrite step_eq by lia.
    apply number_eq; [auto|lia|]. intros e E L2. change (256 ^ Z.of_nat 2) with 65536 in E. rewrite step_eq by lia. rewrite small by lia. f_equal; lia.
  - apply number_eq; [auto|lia|]. intros a A _. change (256 ^ Z.of_nat 1) with 256 in A. rewrite step_eq by lia.
    apply number_eq; [auto|lia|]. intros b B' L. change (256 ^ Z.of_nat 1) with 256 in B'. rewrite step_eq by lia. rewrite small by lia.
    apply number_eq; [auto|lia|]. intros c C L'. change (256 ^ Z.of_nat 1) with 256 in C. rewrite step_eq by lia.
    apply number_eq; [auto|lia|]. intros e E L2. change (256 ^ Z.of_nat 1) with 256 in E. rewrite step_eq by lia. rewrite small by lia. f_equal; lia.
  - apply number_eq; [auto|lia|]. intros a A _. change (256 ^ Z.of_nat 2) with 65536 in A. rewrite step_eq, small by lia. f_equal; lia.
  - apply number_eq; [auto|lia|]. intros a A _. change (256 ^ Z.of_nat 1) with 256 in A. rewrite step_eq, small by lia. f_equal; lia.
Qed.

Lemma card_size : forall k d o, fits d -> 0 <= o <= len d ->
  size_card_download_w w k d o = (let* n := size_card_download k (skipn (Z.to_nat o) d) in Ok (o + n)).
Proof.
  induction k as [|k IH]; intros d o [B H] O; cbn [size_card_download_w size_card_download].
  { cbn [bind]. f_equal. lia. }
  destruct (Z.ltb_spec o (len d)) as [L|L].
  - rewrite from_eq by lia. rewrite from_ok by lia. cbn [bind].
    destruct (Nat.ltb_spec (length (skipn (Z.to_nat o) d)) 5) as [G|G]; [cbn [bind]; f_equal; lia|].
    set (v := be (sub (skipn (Z.to_nat o) d) 3 2)).
    assert (V : 0 <= v < 65536).
    { pose proof (be_range (sub (skipn (Z.to_nat o) d) 3 2) (bytes_ok_sub _ _ _ (bytes_ok_skipn _ _ B))) as R. rewrite sub_length in R by lia. exact R. }
    rewrite (small (5 + v)), (small (o + (5 + v))) by lia. rewrite skipn_length.
    destruct (Z.ltb_spec (len d) (o + (5 + v))) as [Q|Q], (Nat.ltb_spec (length d - Z.to_nat o) (5 + Z.to_nat v)) as [Q'|Q'];
      unfold len in *; try lia; cbn [negb guard bind]; [reflexivity|].
    rewrite IH by (split; auto; unfold len; lia). rewrite skipn_skipn.
    replace (Z.to_nat (o + (5 + v))) with (Z.to_nat o + (5 + Z.to_nat v))%nat by lia.
    destruct (size_card_download k _); cbn [bind]; auto. apply f_equal. lia.
  - assert (E : skipn (Z.to_nat o) d = []) by (apply skipn_all2; unfold len in *; lia). rewrite E. cbn. f_equal. lia.
Qed.

Lemma size_same t d : fits d -> same_size d (size_of_transfer_value t d) (size_of_transfer_value_w w t d).
Proof.
  intros F0. destruct (gen1_sizes d F0) as (E1 & E2 & E3 & E4 & E5).
  destruct t; cbn [size_of_transfer_value size_of_transfer_value_w]; try (apply skip_same; [exact F0|lia]); left; auto.
  rewrite card_size by (auto; pose proof (len_nonneg d); lia). cbn [Z.to_nat skipn].
  destruct (size_card_download (length d) d); cbn [bind]; auto.
Qed.

Lemma size_nonneg t d n : bytes_ok d -> size_of_transfer_value t d = Ok n -> 0 <= n.
Proof.
  intros B. assert (NN : forall w d o v, bytes_ok d -> number_at w d o = Ok v -> 0 <= v).
  { intros u e o v B' E. unfold number_at in E. apply bind_ok in E as (x & Q & E). apply bind_ok in E as (? & _ & E). apply Ok_inj in E. subst v.
    apply be_range, bytes_ok_sub. unfold from in Q. destruct (_ <=? _); [|discriminate]. apply Ok_inj in Q. subst x. now apply bytes_ok_skipn. }
  assert (SK : forall m e o v, bytes_ok e -> 0 <= o -> skip_record_arrays m e o = Ok v -> 0 <= v).
  { induction m as [|m IH]; intros e o v B' O E; cbn [skip_record_arrays] in E; [apply Ok_inj in E; lia|].
    apply bind_ok in E as (x & Q & E). unfold size_of_record_array in Q. apply bind_ok in Q as (t' & Q1 & Q). apply bind_ok in Q as (? & _ & Q).
    apply Ok_inj in Q. unfold from in Q1. destruct (_ <=? _); [|discriminate]. apply Ok_inj in Q1. subst t' x.
    assert (B2 : forall i, 0 <= be (sub (skipn (Z.to_nat o) e) i 2)) by (intros; now apply be_range, bytes_ok_sub, bytes_ok_skipn).
    pose proof (B2 1%nat). pose proof (B2 3%nat). eapply (IH e); [auto| |exact E]. nia. }
  assert (CD : forall k e v, size_card_download k e = Ok v -> 0 <= v).
  { induction k as [|k IH]; intros e v E; cbn [size_card_download] in E; [apply Ok_inj in E; lia|].
    destruct (length e <? 5)%nat; [apply Ok_inj in E; lia|]. apply bind_ok in E as (? & _ & E). apply bind_ok in E as (y & Q & E).
    apply IH in Q. apply Ok_inj in E. lia. }
  intros E. destruct t; cbn [size_of_transfer_value] in E; try (now apply SK in E; [|auto|lia]); try (now apply CD in E);
    unfold size_interface_version, size_overview_gen1, size_activities_gen1, size_events_gen1, size_speed_gen1, size_technical_gen1 in E;
    repeat (apply bind_ok in E as (? & ?Q & E)); apply Ok_inj in E; subst n;
    repeat match goal with Q : number_at _ _ _ = Ok _ |- _ => apply NN in Q; [|exact B] end; nia.
Qed.

(** Too large a size comes from an array that announces it. *)
Lemma large_announced t d n : fits d -> size_of_transfer_value t d = Ok n -> len d + K + 16777215 <= n -> announces K d.
Proof.
  intros [B H].
  assert (SK : forall m e o v, bytes_ok e -> 0 <= o <= len e + K + 5 -> skip_record_arrays m e o = Ok v -> len e + K + 16777215 <= v -> announces K e).
  { induction m as [|m IH]; intros e o v B' O E V; cbn [skip_record_arrays] in E; [apply Ok_inj in E; lia|].
    apply bind_ok in E as (x & Q & E). unfold size_of_record_array in Q. apply bind_ok in Q as (t' & Q1 & Q). apply bind_ok in Q as (? & G & Q).
    apply guard_ok in G. apply Bool.negb_true_iff, Nat.ltb_ge in G.
    apply Ok_inj in Q. unfold from in Q1. destruct (Z.leb_spec o (len e)); [|discriminate]. apply Ok_inj in Q1. subst t' x.
    rewrite !sub_skipn2 in E. rewrite skipn_length in G.
    assert (A : 0 <= be (sub e (Z.to_nat o + 1) 2)) by now apply be_range, bytes_ok_sub.
    assert (A' : 0 <= be (sub e (Z.to_nat o + 3) 2)) by now apply be_range, bytes_ok_sub.
    set (a := be (sub e (Z.to_nat o + 1) 2)) in *. set (b := be (sub e (Z.to_nat o + 3) 2)) in *.
    destruct (Z.lt_ge_cases (a * b) K) as [C|C].
    - eapply (IH e); [auto| |exact E|exact V]. nia.
    - exists (Z.to_nat o + 1)%nat. replace (Z.to_nat o + 1 + 2)%nat with (Z.to_nat o + 3)%nat by lia. split; [lia|exact C]. }
  pose proof (len_nonneg d) as N.
  assert (NN : forall u o v, number_at u d o = Ok v -> 0 <= v < 256 ^ Z.of_nat u /\ o <= len d).
  { intros u o v E. unfold number_at in E. apply bind_ok in E as (x & Q & E). apply bind_ok in E as (? & G & E). apply Ok_inj in E. subst v.
    apply guard_ok in G. apply Bool.negb_true_iff, Nat.ltb_ge in G.
    unfold from in Q. destruct (Z.leb_spec o (len d)); [|discriminate]. apply Ok_inj in Q. subst x. split; [|auto].
    pose proof (be_range (sub (skipn (Z.to_nat o) d) 0 u) (bytes_ok_sub _ _ _ (bytes_ok_skipn _ _ B))) as R.
    rewrite sub_length in R by lia. exact R. }
  assert (CD : forall k e v, size_card_download k e = Ok v -> v <= len e).
  { induction k as [|k IH]; intros e v E; cbn [size_card_download] in E; [apply Ok_inj in E; pose proof (len_nonneg e); lia|].
    destruct (length e <? 5)%nat; [apply Ok_inj in E; pose proof (len_nonneg e); lia|]. apply bind_ok in E as (? & G & E). apply bind_ok in E as (y & Q & E).
    apply guard_ok in G. apply Bool.negb_true_iff, Nat.ltb_ge in G.
    apply IH in Q. apply Ok_inj in E. unfold len in *. rewrite skipn_length in Q. lia. }
  intros E V. destruct t; cbn [size_of_transfer_value] in E; try (now apply SK in E; [| |lia|]); try (apply CD in E; lia);
    unfold size_interface_version, size_overview_gen1, size_activities_gen1, size_events_gen1, size_speed_gen1, size_technical_gen1 in E;
    repeat (apply bind_ok in E as (? & ?Q & E)); apply Ok_inj in E; subst n; exfalso;
    repeat match goal with Q : number_at _ _ _ = Ok _ |- _ => apply NN in Q; cbn in Q; destruct Q as [? ?] end; lia.
Qed.

Lemma split_same : forall k d o, fits d -> 0 <= o <= len d ->
  same d (split_vu k (skipn (Z.to_nat o) d)) (split_vu_w w k d o) /\
  forall rs, split_vu k (skipn (Z.to_nat o) d) = Ok rs -> Forall (fun r => exists i n, vr_value r = sub d i n) rs.
Proof.
  induction k as [|k IH]; intros d o FD O.
  { split; [now left|]. intros rs E. apply Ok_inj in E. subst rs. constructor. }
  destruct FD as [B H]. cbn [split_vu split_vu_w].
  assert (LS : len (skipn (Z.to_nat o) d) = len d - o) by (unfold len in *; rewrite skipn_length; lia).
  destruct (Z.ltb_spec o (len d)) as [L|L].
  2: { assert (E : skipn (Z.to_nat o) d = []) by (apply skipn_all2; unfold len in *; lia). rewrite E. cbn [length Nat.eqb].
       split; [now left|]. intros rs Q. apply Ok_inj in Q. subst rs. constructor. }
  destruct (Nat.eqb_spec (length (skipn (Z.to_nat o) d)) 0) as [Z0|Z0]; [unfold len in *; lia|].
  rewrite (small (o + 2)) by lia.
  destruct (Z.ltb_spec (len d) (o + 2)) as [G|G], (Nat.ltb_spec (length (skipn (Z.to_nat o) d)) 2) as [G'|G'];
    unfold len in LS, G, G'; try (exfalso; clear - LS G G'; lia); cbn [negb guard bind]; [split; [now left|discriminate]|].
  rewrite !from_eq, !from_ok by lia. cbn [bind].
  destruct (find_transfer_type (be (sub (skipn (Z.to_nat o) d) 0 2))) as [t|]; [|split; [now left|discriminate]].
  rewrite (from_ok d (o + 2)) by (unfold len; lia). cbn [bind].
  rewrite skipn_skipn. replace (Z.to_nat o + 2)%nat with (Z.to_nat (o + 2)) by lia.
  set (rest := skipn (Z.to_nat (o + 2)) d).
  assert (LR : len rest = len d - (o + 2)) by (unfold rest, len in *; rewrite skipn_length; lia).
  assert (BR : bytes_ok rest) by now apply bytes_ok_skipn.
  assert (FR : fits rest) by (split; [auto|lia]).
  assert (AR : announces K rest -> announces K d) by apply announces_skipn.
  assert (VALS : forall rs, (let* n := size_of_transfer_value t rest in
      let* _ := guard (negb (len rest <? n)) in
      let* rs := split_vu k (skipn (Z.to_nat n) rest) in
      Ok (mkVR (be (sub (skipn (Z.to_nat o) d) 0 2)) t (firstn (Z.to_nat n) rest) :: rs)) = Ok rs ->
    Forall (fun r => exists i n, vr_value r = sub d i n) rs).
  { intros rs E. apply bind_ok in E as (n & Q & E). pose proof (size_nonneg t rest n BR Q) as N.
    apply bind_ok in E as (? & GD & E). apply guard_ok in GD. apply Bool.negb_true_iff, Z.ltb_ge in GD.
    apply bind_ok in E as (rs' & R & E). apply Ok_inj in E. subst rs. constructor.
    - exists (Z.to_nat (o + 2)), (Z.to_nat n). reflexivity.
    - unfold rest in R. rewrite skipn_skipn in R. replace (Z.to_nat (o + 2) + Z.to_nat n)%nat with (Z.to_nat (o + 2 + n)) in R by lia.
      apply (IH d (o + 2 + n)) in R; [auto|now split|lia]. }
  split; [|exact VALS].
  destruct (size_same t rest FR) as [E|[AN E]].
  - rewrite E. destruct (size_of_transfer_value t rest) as [n|e|] eqn:Q; cbn [bind]; [|now left..].
    pose proof (size_nonneg t rest n BR Q) as N.
    destruct (Z.ltb_spec (len rest) n) as [C|C].
    + cbn [negb guard bind].
      destruct (Z.lt_ge_cases (o + 2 + n) M) as [D|D].
      * rewrite small by lia. destruct (Z.ltb_spec (len d) (o + 2 + n)); [|lia]. now left.
      * right. split; [|discriminate]. apply AR. exact (large_announced t rest n FR Q ltac:(lia)).
    + rewrite small by lia. destruct (Z.ltb_spec (len d) (o + 2 + n)); [lia|].
      destruct (Z.ltb_spec (o + 2 + n) (o + 2)); [lia|]. cbn [negb guard bind].
      unfold rest at 1. rewrite skipn_skipn. replace (Z.to_nat (o + 2) + Z.to_nat n)%nat with (Z.to_nat (o + 2 + n)) by lia.
      destruct (IH d (o + 2 + n)) as [[I|[A I]] _]; [now split|lia| |].
      * rewrite I. left. destruct (split_vu k _); cbn [bind]; auto. replace (o + 2 + n - (o + 2)) with n by lia. reflexivity.
      * right. split; [exact A|]. intros x X. apply bind_ok in X as (rs & X & _). exact (I rs X).
  - right. split; [now apply AR|]. intros x X. apply bind_ok in X as (n & Q & X).
    specialize (E n Q). apply bind_ok in X as (? & GD & _). apply guard_ok in GD. apply Bool.negb_true_iff, Z.ltb_ge in GD. lia.
Qed.

Lemma gen2_same t d v : fits d -> (exists i n, v = sub d i n) -> same d (unmarshal_gen2 t v) (unmarshal_gen2_w w t v).
Proof.
  intros [B H] (i & n & E).
  assert (L : len v <= len d).
  { subst v. unfold sub, len. rewrite firstn_length, skipn_length. lia. }
  assert (FV : fits v) by (split; [subst v; now apply bytes_ok_sub|lia]).
  unfold unmarshal_gen2, unmarshal_gen2_w. destruct (skip_same (arrays_parsed t) v 0 FV ltac:(lia)) as [Q|[A Q]].
  - rewrite Q. now left.
  - right. split; [subst v; exact (announces_sub _ _ _ _ A)|]. intros x X. apply bind_ok in X as (o & S1 & X).
    specialize (Q o S1). apply bind_ok in X as (? & G & _). apply guard_ok, Z.eqb_eq in G. lia.
Qed.

Lemma step_same v2 d f r : fits d -> (exists i n, vr_value r = sub d i n) -> same d (step_gen2 v2 f r) (step_gen2_w w v2 f r).
Proof.
  intros FD V. unfold step_gen2, step_gen2_w. destruct (role_gen2 v2 (vr_type r)) as [[]|]; try (now left);
    (destruct (gen2_same (vr_type r) d (vr_value r) FD V) as [Q|[A Q]];
     [rewrite Q; now left|right; split; [exact A|]; intros x X; apply bind_ok in X as (y & X & _); exact (Q y X)]).
Qed.

Lemma fold_same v2 d rs : fits d -> Forall (fun r => exists i n, vr_value r = sub d i n) rs ->
  forall f, same d (fold_res (step_gen2 v2) f rs) (fold_res (step_gen2_w w v2) f rs).
Proof.
  intros FD. induction 1 as [|r rs V _ IH]; intros f; cbn [fold_res]; [now left|].
  destruct (step_same v2 d f r FD V) as [Q|[A Q]].
  - rewrite Q. destruct (step_gen2 v2 f r); cbn [bind]; [apply IH|now left..].
  - right. split; [exact A|]. intros x X. apply bind_ok in X as (y & X & _). exact (Q y X).
Qed.

Lemma vu_same cm d : fits d -> same d (unmarshal_vu cm d) (unmarshal_vu_w w cm d).
Proof.
  intros FD. unfold unmarshal_vu, unmarshal_vu_w, unmarshal_raw_vu.
  destruct (split_same (length d) d 0 FD ltac:(pose proof (len_nonneg d); lia)) as [[Q|[A Q]] V]; cbn [Z.to_nat skipn] in *.
  - rewrite Q. destruct (split_vu (length d) d) as [rs|e|] eqn:E; cbn [bind]; [|now left..].
    specialize (V rs eq_refl). destruct rs as [|r rs]; [now left|]. cbv zeta.
    destruct (transfer_generation (vr_type r) =? GENERATION_1); [now left|].
    destruct (transfer_generation (vr_type r) =? GENERATION_2); [|now left].
    destruct (has_gen2_v2_transfers (r :: rs));
      (match goal with |- context [step_gen2 ?b] => destruct (fold_same b d (r :: rs) FD V empty_gen2) as [R|[A R]] end;
       [rewrite R; now left|right; split; [exact A|]; intros x X; apply bind_ok in X as (y & X & _); exact (R y X)]).
  - right. split; [exact A|]. intros x X. apply bind_ok in X as (y & X & _). exact (Q y X).
Qed.

Lemma file_same cm d : fits d -> same d (unmarshal_file cm d) (unmarshal_file_w w cm d).
Proof.
  intros FD. unfold unmarshal_file_w. unfold unmarshal_file at 1.
  destruct (length d <? 2)%nat eqn:L; [now left|]. destruct (nth 0 d 0 =? 118) eqn:T.
  - destruct (vu_same cm d FD) as [Q|[A Q]]; [rewrite Q; now left|].
    right. split; [exact A|]. intros x X. apply bind_ok in X as (y & X & _). exact (Q y X).
  - left. unfold unmarshal_file. now rewrite L, T.
Qed.

End Agree.

(** ** C108 *)

Lemma announces_bound d : bytes_ok d -> ~ announces (2 ^ 32) d.
Proof.
  intros B (i & L & H).
  assert (R : forall j, 0 <= be (sub d j 2) < 65536).
  { intros j. pose proof (be_range (sub d j 2) (bytes_ok_sub _ _ _ B)) as R. split; [apply R|].
    eapply Z.lt_le_trans; [apply R|]. pose proof (sub_length_le d j 2) as L2.
    change 65536 with (256 ^ 2). apply Z.pow_le_mono_r; lia. }
  pose proof (R i). pose proof (R (i + 2)%nat). change (2 ^ 32) with 4294967296 in H. nia.
Qed.

(** With 64 bits no sum or product wraps around: the model with unbounded integers is
    exact for every file that memory can hold. *)
Theorem C108_64 : forall cm d, bytes_ok d -> len d < 2 ^ 62 -> unmarshal_file_w 64 cm d = unmarshal_file cm d.
Proof.
  intros cm d B L. destruct (file_same 64 (2 ^ 32) ltac:(lia) ltac:(lia) cm d) as [E|[A _]]; auto.
  - split; [auto|]. change (2 ^ (64 - 1)) with (2 ^ 63). lia.
  - destruct (announces_bound d B A).
Qed.

(** With 32 bits: what the 64-bit program accepts, the 32-bit program reads to the
    same message; and the two agree on every file, malformed or not, in which no four
    consecutive bytes announce 2^30 bytes or more. *)
Theorem C108_32_partial : forall cm d, bytes_ok d -> len d < 10 ^ 9 ->
  (forall f, unmarshal_file_w 64 cm d = Ok f -> unmarshal_file_w 32 cm d = Ok f) /\
  (~ announces (2 ^ 30) d -> unmarshal_file_w 32 cm d = unmarshal_file_w 64 cm d).
Proof.
  intros cm d B L. rewrite C108_64 by (auto; lia).
  destruct (file_same 32 (2 ^ 30) ltac:(lia) ltac:(lia) cm d) as [E|[A N]].
  - split; [auto|]. change (2 ^ (32 - 1)) with 2147483648. change (2 ^ 30) with 1073741824. change (10 ^ 9) with 1000000000 in L. lia.
  - rewrite E. auto.
  - split; [intros f H; destruct (N f H)|tauto].
Qed.

(** A speed transfer of seven bytes past its tag: with 64 bits the size of the second
    array is too large and the file is refused, with 32 bits the offset is negative
    and the program panics. *)
Definition wide_speed : bytes := [0x76; 0x24; 1; 0; 0; 0; 0; 1; 255; 255; 255; 255].

Theorem C108_same_outcome_refuted : exists d, bytes_ok d /\ len d < 10 ^ 9 /\
  forall cm, unmarshal_file_w 64 cm d = fail /\ unmarshal_file_w 32 cm d = Panic.
Proof.
  exists wide_speed. split; [|split].
  - apply Forall_forall. intros x H. cbn in H. unfold byte_ok. intuition lia.
  - vm_compute. reflexivity.
  - intros cm. split; reflexivity.
Qed.

(** An overview whose second array reaches back to the start of the first with 32
    bits: it is read, where with 64 bits the program panics. *)
Definition wide_overview : bytes :=
  [0x76; 0x21] ++ [1; 0; 5; 102; 103] ++ repeat 0 9 ++ [1; 0; 2; 255; 255] ++ repeat 0 (Z.to_nat 131061) ++
  [1; 255; 255; 255; 255] ++ repeat 0 44.

Theorem C108_accepts_more_refuted : exists d, bytes_ok d /\ len d < 10 ^ 9 /\
  forall cm, unmarshal_file_w 64 cm d = Panic /\ exists f, unmarshal_file_w 32 cm d = Ok f.
Proof.
  exists wide_overview. split; [|split].
  - unfold wide_overview. rewrite !bytes_ok_app. repeat split; try (apply bytes_ok_repeat; unfold byte_ok; lia);
      (apply Forall_forall; intros x H; cbn [In] in H; unfold byte_ok; intuition lia).
  - vm_compute. reflexivity.
  - intros cm. split.
    + vm_compute. reflexivity.
    + assert (E : match unmarshal_file_w 32 cm wide_overview with Ok _ => true | _ => false end = true) by (vm_compute; reflexivity).
      destruct (unmarshal_file_w 32 cm wide_overview) as [f|e|]; [exists f; reflexivity|discriminate E..].
Qed.

(** The hypotheses of the theorems hold for a file of speeds that both read. *)
Example C108_example : let d := [0x76; 0x24; 1; 0; 2; 0; 1; 7; 8; 1; 0; 0; 0; 0] in
  bytes_ok d /\ len d < 10 ^ 9 /\ ~ announces (2 ^ 30) d /\
  unmarshal_file_w 32 no_charmap d = Ok (mkFile FILE_VEHICLE_UNIT (Some (VuGen2V1 (mkG2 None [] [] [skipn 2 d] []))) None None).
Proof.
  cbv zeta. split; [|split; [|split]].
  - apply Forall_forall. intros x H. cbn in H. unfold byte_ok. intuition lia.
  - vm_compute. reflexivity.
  - intros (i & L & H). cbn in L. do 11 (destruct i as [|i]; [vm_compute in H; congruence|]). lia.
  - vm_compute. reflexivity.
Qed.
