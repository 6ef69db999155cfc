(** C149: the days and changes in the message of a card in use are in order. *)

From Coq Require Import Sorted.
From Verif Require Import Base Enums DDScalar Chunks CardActivity P_Scalar Props_Scalar Field P_Records Props_Activity Use Props_Use.

(** The date of a day, and the time of day of a change in minutes
    (docs/regulation/chapters/03-data-dictionary.md: ActivityChangeInfo, the low 11 bits). *)
Definition date_of (d : happened) : Z := be (sub (fst d) 0 4).
Definition minute_of (v : Z) : Z := v mod 2048.

(** What happened, happened in order: each day after the one before, and within a day
    no change before an earlier one. *)
Definition in_time (h : list happened) : Prop :=
  StronglySorted Z.lt (map date_of h) /\ Forall (fun d => 0 < date_of d) h /\
  Forall (fun d => StronglySorted Z.le (map minute_of (snd d))) h.

(** The days of a message are in order, and no day is there twice. *)
Definition told_in_order (days : list day) : Prop :=
  (exists ts, map day_date days = map (fun t => Some (mkTs t 0)) ts /\ StronglySorted Z.lt ts) /\
  Forall (fun r => StronglySorted Z.le (map ac_minutes (day_changes r))) days.

(** ** Lists in order *)

Lemma sorted_app {X} (R : X -> X -> Prop) a b : StronglySorted R (a ++ b) -> StronglySorted R b.
Proof. induction a as [|x a IH]; intros H; [exact H|]. inversion H; subst. auto. Qed.

Lemma sorted_map_filter {X} (f : X -> Z) (p : X -> bool) l : StronglySorted Z.le (map f l) -> StronglySorted Z.le (map f (filter p l)).
Proof.
  induction l as [|x l IH]; intros H; [constructor|]. cbn [map] in H. inversion H as [|? ? H1 H2]; subst. cbn [filter].
  destruct (p x); [|auto]. cbn [map]. constructor; [auto|]. rewrite Forall_map, Forall_forall in *. intros y I. apply filter_In in I as [I _]. auto.
Qed.

(** ** The minutes of a change that was read *)

Lemma changes_minutes d : forall cs, parse_changes d = Ok cs -> Forall (fun c => 0 <= ac_minutes c < 2048) cs.
Proof.
  induction d as [|b|b0 b1 t IH] using pair_ind; intros cs H; cbn [parse_changes] in H; try (apply Ok_inj in H; subst; constructor).
  destruct ((be [b0; b1] =? 0) || (be [b0; b1] =? 65535)); [auto|].
  apply bind_ok in H as (c & C & H). apply bind_ok in H as (cs' & E & H). apply Ok_inj in H. subst cs. constructor; [|auto].
  unfold unmarshal_activity_change in C. apply bind_ok in C as ([] & _ & C). apply bind_ok in C as (sl & _ & C).
  apply bind_ok in C as (ac & _ & C). apply Ok_inj in C. subst c. cbn [ac_minutes]. apply Z.mod_pos_bound. lia.
Qed.

Lemma day_minutes d : Forall (fun c => 0 <= ac_minutes c < 2048) (day_changes (day_of d)).
Proof.
  unfold day_of. destruct (parse_day d) as [r|e|] eqn:P; try constructor. unfold parse_day in P.
  apply bind_ok in P as ([] & _ & P). apply bind_ok in P as (t & _ & P). apply bind_ok in P as (c & _ & P).
  apply bind_ok in P as (cs & C & P). apply Ok_inj in P. subst r. cbn [day_changes]. eapply changes_minutes, C.
Qed.

Lemma walked_minutes (w : res (list bytes)) ds : (let* rs := w in Ok (rev (map day_of rs))) = Ok ds ->
  Forall (fun r => Forall (fun c => 0 <= ac_minutes c < 2048) (day_changes r)) ds.
Proof.
  intros P. apply bind_ok in P as (rs & _ & P). apply Ok_inj in P. subst ds. apply Forall_rev, Forall_map, Forall_forall.
  intros r _. apply day_minutes.
Qed.

Lemma days_minutes buf p ds : parse_days buf p = Ok ds -> Forall (fun r => Forall (fun c => 0 <= ac_minutes c < 2048) (day_changes r)) ds.
Proof. apply walked_minutes. Qed.

Lemma file_minutes d a : unmarshal_activity d = Ok a -> Forall (fun r => Forall (fun c => 0 <= ac_minutes c < 2048) (day_changes r)) (act_days a).
Proof.
  intros U. unfold unmarshal_activity in U. apply bind_ok in U as ([] & _ & U). cbv zeta in U. destruct (length (skipn 4 d) =? 0)%nat; [discriminate U|].
  apply bind_ok in U as (ds & P & U). apply Ok_inj in U. subst a. cbn [act_days]. exact (days_minutes _ _ _ P).
Qed.

Lemma bits_minutes c : 0 <= ac_minutes c < 2048 -> minute_of (change_bits c) = ac_minutes c.
Proof.
  intros H. unfold minute_of, change_bits, activity_bits. destruct (ac_crew c), (ac_inserted c); lia.
Qed.

(** ** C149 *)

Lemma shown_in_order h days : in_time h -> Forall (fun d => bytes_ok (fst d) /\ length (fst d) = 8%nat) h -> Forall2 shows h days ->
  Forall (fun r => Forall (fun c => 0 <= ac_minutes c < 2048) (day_changes r)) days -> told_in_order days.
Proof.
  intros (S & P & M) W F N. split.
  - exists (map date_of h). split; [|exact S]. clear S M N. induction F as [|d r h days (_ & D & _) F IH]; [reflexivity|].
    inversion P; subst. inversion W as [|? ? [_ L] W']; subst. cbn [map]. rewrite IH by auto. f_equal.
    unfold unmarshal_time in D. rewrite sub_length in D by lia. cbn [Nat.eqb guard bind] in D. fold (date_of d) in D.
    destruct (Z.eqb_spec (date_of d) 0) as [Q|Q]; [lia|]. apply Ok_inj in D. congruence.
  - clear S P W. induction F as [|d r h days (_ & _ & _ & C) F IH]; [constructor|]. inversion M; subst. inversion N as [|? ? N1 N2]; subst.
    constructor; [|auto].
    assert (E : map ac_minutes (day_changes r) = map minute_of (map change_bits (day_changes r))).
    { rewrite map_map. apply map_ext_in. intros c I. rewrite Forall_forall in N1. symmetry. auto using bits_minutes. }
    rewrite E, C. now apply sorted_map_filter.
Qed.

(** For every life of a card, however often the string went around, and also where
    C145 is only partial: whenever the file is read, its days are in order. *)
Theorem C149_in_order : forall buf us s a, bytes_ok buf -> (24 <= length buf)%nat -> Z.of_nat (length buf) < 65536 ->
  Forall usage_ok us -> Forall (fun d => (size d + 12 <= length buf)%nat) (history us) -> in_time (history us) ->
  use buf us = Some s -> unmarshal_activity (file_of s) = Ok a -> told_in_order (act_days a).
Proof.
  intros buf us s a B L LZ U SZ T US R.
  assert (NE : history us <> []).
  { destruct (use_inv (length buf) buf us (conj L LZ) B eq_refl U SZ) as [[_ Q]|(pre & init & d & s' & E & _)]; [congruence|].
    rewrite E. destruct pre, init; discriminate. }
  pose proof (history_ok us U) as OK.
  destruct (C145_in_use_partial buf us B L LZ U SZ NE) as (h1 & h2 & h3 & s' & E & _ & US' & _ & _ & _ & _ & R1 & R2).
  rewrite US in US'. injection US' as <-. destruct (Nat.le_gt_cases (length h3) 365) as [Q|Q].
  - destruct (R1 Q) as (a' & R' & SH). rewrite R in R'. apply Ok_inj in R'. subst a'.
    rewrite E, app_assoc in T, OK. apply (shown_in_order h3); [| |exact SH|eapply file_minutes, R].
    + destruct T as (T1 & T2 & T3). rewrite map_app in T1. apply sorted_app in T1. apply Forall_app in T2 as [_ T2], T3 as [_ T3]. split; auto.
    + apply Forall_app in OK as [_ OK]. eapply Forall_impl; [|exact OK]. cbn. intros d (K1 & K2 & _). auto.
  - destruct (R2 Q) as (e & X). congruence.
Qed.
Print Assumptions C149_in_order.

(** In other words: no date occurs twice, and the first day of the message is the oldest. *)
Corollary C149_no_day_twice : forall buf us s a i j x y, bytes_ok buf -> (24 <= length buf)%nat -> Z.of_nat (length buf) < 65536 ->
  Forall usage_ok us -> Forall (fun d => (size d + 12 <= length buf)%nat) (history us) -> in_time (history us) ->
  use buf us = Some s -> unmarshal_activity (file_of s) = Ok a -> (i < j)%nat ->
  nth_error (act_days a) i = Some x -> nth_error (act_days a) j = Some y ->
  exists t u, day_date x = Some (mkTs t 0) /\ day_date y = Some (mkTs u 0) /\ t < u.
Proof.
  intros buf us s a i j x y B L LZ U SZ T US R IJ X Y.
  destruct (C149_in_order buf us s a B L LZ U SZ T US R) as ((ts & M & S) & _).
  generalize dependent ts. generalize dependent (act_days a). clear R. intros days X Y ts M S. revert days i j IJ X Y M.
  induction S as [|t ts S IH A]; intros days i j IJ X Y M.
  - destruct days; [|discriminate M]. destruct i; discriminate X.
  - destruct days as [|r days]; [discriminate M|]. injection M as M1 M. destruct j as [|j]; [lia|]. cbn [nth_error] in Y.
    destruct i as [|i]; [|cbn [nth_error] in X; apply (IH days i j); auto; lia]. injection X as <-.
    apply (map_nth_error day_date) in Y. rewrite M in Y.
    assert (Q : exists u, nth_error ts j = Some u /\ day_date y = Some (mkTs u 0)).
    { rewrite nth_error_map in Y. destruct (nth_error ts j) as [u|]; [|discriminate Y]. exists u. split; [reflexivity|].
      cbn [option_map] in Y. congruence. }
    destruct Q as (u & Q1 & Q2). exists t, u. split; [exact M1|]. split; [exact Q2|].
    rewrite Forall_forall in A. apply A. eapply nth_error_In, Q1.
Qed.
Print Assumptions C149_no_day_twice.

(** A card on which the first day was overwritten and the last goes around the end. *)
Example C149_example : let us := [Day (sample_fixed 1); Change 2053; Day (sample_fixed 2); Day (sample_fixed 3); Change 2055] in
  Forall usage_ok us /\ in_time (history us) /\
  exists s a, use (zeros 30) us = Some s /\ unmarshal_activity (file_of s) = Ok a /\
    map day_date (act_days a) = [Some (mkTs 2 0); Some (mkTs 3 0)] /\
    map (fun r => map ac_minutes (day_changes r)) (act_days a) = [[]; [7]].
Proof.
  cbv zeta. split; [exact (proj1 (proj2 C145_example))|]. split.
  - split; [|split]; vm_compute; repeat constructor.
  - do 2 eexists. split; [vm_compute; reflexivity|]. split; [vm_compute; reflexivity|]. split; reflexivity.
Qed.
