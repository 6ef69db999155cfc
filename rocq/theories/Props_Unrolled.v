(** C150: the records of a file that is filled in turn, put in the order of storing. *)

From Verif Require Import Base Enums DDScalar DDRecord CardRecords Props_Newest.

(** The list from behind the index around to the index. *)
Definition unrolled {R} (newest : Z) (l : list R) : list R :=
  skipn (Z.to_nat newest + 1) l ++ firstn (Z.to_nat newest + 1) l.

(** It has one record for each of the [n] places and ends with the records that were
    stored last, in the order of storing: all of them, or [n]. *)
Definition ends_with {R} (read : bytes -> res R) (n : nat) (rs : list bytes) (l : list R) : Prop :=
  let m := Nat.min (length rs) n in
  length l = n /\ Forall2 (fun c r => read c = Ok r) (skipn (length rs - m) rs) (skipn (length l - m) l).

Lemma nth_error_skip {X} n : forall (l : list X) i, nth_error (skipn n l) i = nth_error l (n + i).
Proof. induction n as [|n IH]; intros [|x l] i; auto. destruct i; reflexivity. apply IH. Qed.

Lemma nth_error_first {X} n : forall (l : list X) i, (i < n)%nat -> nth_error (firstn n l) i = nth_error l i.
Proof. induction n as [|n IH]; intros [|x l] [|i] L; try lia; auto. cbn. apply IH. lia. Qed.

Lemma forall2_at {X} (P : bytes -> X -> Prop) a : forall b, length a = length b ->
  (forall i, (i < length a)%nat -> exists r, P (nth i a []) r /\ nth_error b i = Some r) -> Forall2 P a b.
Proof.
  induction a as [|x a IH]; intros [|y b] L H; try discriminate L; constructor.
  - destruct (H 0%nat ltac:(cbn; lia)) as (r & R & E). injection E as <-. exact R.
  - apply IH; [now injection L|]. intros i I. apply (H (Datatypes.S i)). cbn. lia.
Qed.

Lemma unrolled_length {R} k (l : list R) : length (unrolled k l) = length l.
Proof. unfold unrolled. rewrite app_length, skipn_length, firstn_length. lia. Qed.

Lemma unrolled_at {R} (l : list R) k i : (k < length l)%nat -> (i < length l)%nat ->
  nth_error (unrolled (Z.of_nat k) l) (length l - 1 - i) = nth_error l ((k + length l - i) mod length l).
Proof.
  intros K I. unfold unrolled. rewrite Nat2Z.id. destruct (Nat.le_gt_cases i k) as [C|C].
  - rewrite nth_error_app2; rewrite skipn_length; [|lia]. rewrite nth_error_first by lia. f_equal.
    replace (k + length l - i)%nat with ((k - i) + 1 * length l)%nat by lia. rewrite Nat.mod_add, Nat.mod_small by lia. lia.
  - rewrite nth_error_app1 by (rewrite skipn_length; lia). rewrite nth_error_skip. f_equal. rewrite Nat.mod_small by lia. lia.
Qed.

Lemma latest_ends {R} (read : bytes -> res R) rs newest l k : latest read rs newest l -> newest = Z.of_nat k -> (k < length l)%nat ->
  ends_with read (length l) rs (unrolled newest l).
Proof.
  intros H -> K. unfold ends_with. rewrite unrolled_length. split; [reflexivity|]. set (m := Nat.min (length rs) (length l)).
  assert (M1 : (m <= length rs)%nat) by lia. assert (M2 : (m <= length l)%nat) by lia. clearbody m.
  apply forall2_at; [rewrite !skipn_length, unrolled_length; lia|]. rewrite skipn_length. intros i I.
  destruct (H (m - 1 - i)%nat ltac:(lia) ltac:(lia)) as (r & R1 & R2). exists r. split.
  - rewrite nth_skip. replace (length rs - m + i)%nat with (length rs - 1 - (m - 1 - i))%nat by lia. exact R1.
  - rewrite nth_error_skip. replace (length l - m + i)%nat with (length l - 1 - (m - 1 - i))%nat by lia.
    rewrite unrolled_at by lia. rewrite Nat2Z.id in R2. exact R2.
Qed.

(** For the results of C146. *)
Lemma index_ends {R} (read : bytes -> res R) pw w places rs newest l : in_use pw w places rs ->
  newest = Z.of_nat ((length rs - 1) mod length places) /\ length l = length places /\ latest read rs newest l ->
  ends_with read (length places) rs (unrolled newest l).
Proof.
  intros (_ & _ & N & _) (E & L & H). rewrite <- L. apply (latest_ends read rs newest l _ H E). rewrite L. apply Nat.mod_upper_bound.
  destruct places; [congruence|discriminate].
Qed.

(** ** C150 *)

Theorem C150_stored_order : forall places rs,
  (forall x, in_use 1 10 places rs -> unmarshal_places (indexed_file 1 places rs) = Ok x ->
     ends_with unmarshal_place (length places) rs (unrolled (ps_newest x) (ps_records x))) /\
  (forall x, in_use 2 21 places rs -> unmarshal_places_g2 (indexed_file 2 places rs) = Ok x ->
     ends_with unmarshal_place_g2 (length places) rs (unrolled (ps2_newest x) (ps2_records x))) /\
  (forall x, in_use 2 5 places rs -> unmarshal_conditions_g2 (indexed_file 2 places rs) = Ok x ->
     ends_with unmarshal_spec_cond (length places) rs (unrolled (co2_newest x) (co2_records x))) /\
  (forall cm x, in_use 2 31 places rs -> unmarshal_vehicles cm (indexed_file 2 places rs) = Ok x ->
     ends_with (unmarshal_card_vehicle cm) (length places) rs (unrolled (vs_newest x) (vs_records x))) /\
  (forall cm x, in_use 2 48 places rs -> unmarshal_vehicles_g2 cm (indexed_file 2 places rs) = Ok x ->
     ends_with (unmarshal_card_vehicle_g2 cm) (length places) rs (unrolled (vs2_newest x) (vs2_records x))) /\
  (forall x, in_use 2 18 places rs -> unmarshal_gnss_places (indexed_file 2 places rs) = Ok x ->
     ends_with unmarshal_gnss_record (length places) rs (unrolled (gps_newest x) (gps_records x))).
Proof.
  intros places rs. destruct (C146_total places rs) as (T1 & T2 & T3). destruct (C146_accepted places rs) as (A1 & A2 & A3).
  split; [|split; [|split; [|split; [|split]]]].
  - intros x I U. destruct (T1 I) as (y & V & Q). rewrite U in V. apply Ok_inj in V. subst y. eapply index_ends; eauto.
  - intros x I U. destruct (T2 I) as (y & V & Q). rewrite U in V. apply Ok_inj in V. subst y. eapply index_ends; eauto.
  - intros x I U. destruct (T3 I) as (y & V & Q). rewrite U in V. apply Ok_inj in V. subst y. eapply index_ends; eauto.
  - intros cm x I U. eapply index_ends; eauto.
  - intros cm x I U. eapply index_ends; eauto.
  - intros x I U. eapply index_ends; eauto.
Qed.
Print Assumptions C150_stored_order.

(** Vehicle units, in a file of at most 409 records. *)
Theorem C150_units_partial : forall places rs x, in_use 2 10 places rs -> (length places <= 409)%nat ->
  unmarshal_units_used (indexed_file 2 places rs) = Ok x ->
  ends_with (fun c => unmarshal_unit_record (c, c)) (length places) rs (unrolled (uu_newest x) (uu_records x)).
Proof. intros places rs x I L U. eapply index_ends; [exact I|]. now apply C146_units_partial. Qed.
Print Assumptions C150_units_partial.

(** With 410 records the first one of the list is not what was stored. *)
Theorem C150_units_refuted : exists places rs x, in_use 2 10 places rs /\ unmarshal_units_used (indexed_file 2 places rs) = Ok x /\
  ~ ends_with (fun c => unmarshal_unit_record (c, c)) (length places) rs (unrolled (uu_newest x) (uu_records x)).
Proof.
  assert (U : exists x, unmarshal_units_used (indexed_file 2 units_places units_stored) = Ok x /\
    length (uu_records x) = 410%nat /\ nth_error (unrolled (uu_newest x) (uu_records x)) 0 <>
      match unmarshal_unit_record (nth 0 units_stored [], nth 0 units_stored []) with Ok r => Some r | _ => None end).
  { eexists. split; [vm_compute; reflexivity|]. split; [vm_compute; reflexivity|]. vm_compute. congruence. }
  destruct U as (x & U & L & D). exists units_places, units_stored, x. split; [exact units_in_use|]. split; [exact U|].
  assert (LP : length units_places = 410%nat) by (unfold units_places; apply repeat_length).
  unfold ends_with. rewrite LP.
  assert (LS : length units_stored = 410%nat) by (unfold units_stored; rewrite map_length, seq_length; reflexivity).
  rewrite LS, Nat.min_id, Nat.sub_diag. cbn [skipn]. rewrite unrolled_length, L, Nat.sub_diag. cbn [skipn]. intros (_ & Q).
  clear U L. revert D LS Q. generalize (unrolled (uu_newest x) (uu_records x)) units_stored. intros l us D LS Q.
  destruct Q as [|c r us l C Q]; [discriminate LS|]. cbn [nth nth_error] in D. rewrite C in D. congruence.
Qed.
Print Assumptions C150_units_refuted.

(** Three places, five records: from behind the index the list is in order. *)
Example C150_example : let rs := [pl 1; pl 2; pl 3; pl 4; pl 5] in
  exists x, unmarshal_places (indexed_file 1 (repeat (pl 0) 3) rs) = Ok x /\ in_use 1 10 (repeat (pl 0) 3) rs /\
    map pl_odometer (ps_records x) = [4; 5; 3] /\ map pl_odometer (unrolled (ps_newest x) (ps_records x)) = [3; 4; 5].
Proof.
  cbv zeta. eexists. split; [vm_compute; reflexivity|]. split; [exact (proj1 C146_example)|]. split; reflexivity.
Qed.
