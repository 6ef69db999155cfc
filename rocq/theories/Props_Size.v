(** C103: how many entries a message can have for the size of its file. *)

From Verif Require Import Base Enums Chunks DDScalar P_Scalar DDString DDRecord.
From Verif Require Import Scanner P_Scanner RawTypes RawCard P_RawCard Infer CardBasic CardRecords P_Records CardIdent.
From Verif Require Import CardActivity Asn1 Cert P_Cert DriverCard P_Driver Vu P_Vu Verify Api P_Dump Props_RawCard Props_Dump Props_Driver.
From Verif Require Import Props_Framed Props_Activity.
From Verif Require Props_Vu Props_Records Props_Download.

(** ** Counting

    The elements of all repeated fields, at every depth. *)

Definition day_entries (r : day) : nat := S (length (day_changes r)).

Definition entries (s : slot) : content s -> nat :=
  match s return content s -> nat with
  | S_icc => fun _ => 0%nat
  | S_ic => fun _ => 0%nat
  | S_app_id => fun _ => 0%nat
  | S2_app_id => fun _ => 0%nat
  | S_licence | S2_licence => fun _ => 0%nat
  | S_identification | S2_identification => fun _ => 0%nat
  | S_events | S2_events | S_faults | S2_faults => fun l => length l
  | S_activity | S2_activity => fun x => list_sum (map day_entries (act_days x))
  | S_vehicles => fun x => length (vs_records x)
  | S2_vehicles => fun x => length (vs2_records x)
  | S_places => fun x => length (ps_records x)
  | S2_places => fun x => length (ps2_records x)
  | S_usage | S2_usage => fun _ => 0%nat
  | S_control | S2_control => fun _ => 0%nat
  | S_conditions => fun x => length (co_records x)
  | S2_conditions => fun x => length (co2_records x)
  | S_download | S2_download => fun _ => 0%nat
  | S2_units => fun x => length (uu_records x)
  | S2_gnss => fun x => length (gps_records x)
  | S2_app_v2 => fun _ => 0%nat
  | S_card_cert | S_ca_cert => fun _ => 0%nat
  | S2_ma_cert | S2_sign_cert | S2_ca_cert | S2_link_cert => fun _ => 0%nat
  end.

Definition card_entries (c : driver_card) (s : slot) : nat :=
  match slot_of_card c s with Some (x, _) => entries s x | None => 0 end.

Definition is_activity (s : slot) : bool := match s with S_activity | S2_activity => true | _ => false end.

Definition all_slots : list slot :=
  [S_icc; S_ic; S_app_id; S_licence; S_identification; S_events; S_faults; S_activity; S_vehicles;
   S_places; S_usage; S_control; S_conditions; S_download; S_card_cert; S_ca_cert;
   S2_app_id; S2_licence; S2_identification; S2_events; S2_faults; S2_activity;
   S2_vehicles; S2_places; S2_usage; S2_control; S2_conditions; S2_download;
   S2_units; S2_gnss; S2_app_v2; S2_ma_cert; S2_sign_cert; S2_ca_cert; S2_link_cert].

Definition overview_entries (o : overview_gen1) : nat :=
  length (ov_downloads o) + length (ov_locks o) + length (ov_controls o).
Definition day_of_vu_entries (a : activities_gen1) : nat :=
  S (length (ac_iw a) + length (ac_changes a) + length (ac_places a) + length (ac_conditions a)).

Definition gen2_entries (f : vu_gen2) : nat :=
  length (g2_activities f) + length (g2_events f) + length (g2_speed f) + length (g2_technical f).

Definition vu_entries (v : vu_file) : nat :=
  match v with
  | VuGen1 f =>
      list_sum (map overview_entries (Props_Vu.opt_list (g1_overview f))) +
      list_sum (map day_of_vu_entries (g1_activities f)) +
      length (g1_events f) + length (g1_speed f) + length (g1_technical f)
  | VuGen2V1 f | VuGen2V2 f => gen2_entries f
  end.

(** ** Lists on a card *)

Lemma chunks_below n d : (0 < n)%nat -> (length (chunks n d) <= length d)%nat.
Proof. intros H. rewrite chunks_count. apply Nat.div_le_upper_bound; [lia|]. nia. Qed.

Lemma scanned_below n d l : (0 < n <= max_token_size)%nat -> scan_fixed n d = Ok l -> (length l <= length d)%nat.
Proof.
  intros N E. destruct (scan_fixed_chunks n d N) as (l' & E' & M). rewrite E in E'. apply Ok_inj in E'. subst l'.
  rewrite <- (map_length fst), M. apply chunks_below. lia.
Qed.

Lemma map_res_length {A B} (f : A -> res B) l xs : map_res f l = Ok xs -> length xs = length l.
Proof. intros E. apply map_res_ok in E. symmetry. now induction E; cbn; f_equal. Qed.

Lemma collected_below {A B} (f : A -> res B) l : (length (collect_ok f l) <= length l)%nat.
Proof. induction l as [|a l IH]; cbn; [lia|]. destruct (f a); cbn; lia. Qed.

Lemma content_below cm s d x : unmarshal_content cm s d = Ok x -> is_activity s = false -> (entries s x <= length d)%nat.
Proof.
  intros E N. assert (T : (24 <= max_token_size)%nat) by (apply Nat.leb_le; vm_compute; reflexivity).
  destruct s; try discriminate N; cbn [entries]; try apply Nat.le_0_l; cbn [unmarshal_content content] in *;
    try (unfold unmarshal_events in E; apply bind_ok in E as (l & S & E); apply map_res_length in E; rewrite E; apply scanned_below with 24%nat; [lia|exact S]).
  - unfold unmarshal_vehicles in E. inv_bind E. apply bind_ok in E as (rs & M & E). apply Ok_inj in E. subst x. cbn [vs_records].
    apply map_res_length in M. rewrite M. pose proof (chunks_below 31 (skipn 2 d) ltac:(lia)). rewrite skipn_length in *. lia.
  - unfold unmarshal_places in E. inv_bind E. apply Ok_inj in E. subst x. cbn [ps_records]. rewrite map_length.
    pose proof (chunks_below 10 (skipn 1 d) ltac:(lia)). rewrite skipn_length in *. lia.
  - unfold unmarshal_conditions in E. destruct (_ =? 0)%nat; apply Ok_inj in E; subst x; cbn [co_records]; [cbn; lia|].
    pose proof (collected_below unmarshal_spec_cond (chunks 5 d)). pose proof (chunks_below 5 d ltac:(lia)). lia.
  - unfold unmarshal_vehicles_g2 in E. inv_bind E. apply bind_ok in E as (rs & M & E). apply Ok_inj in E. subst x. cbn [vs2_records].
    apply map_res_length in M. rewrite M. pose proof (chunks_below 48 (skipn 2 d) ltac:(lia)). rewrite skipn_length in *. lia.
  - unfold unmarshal_places_g2 in E. inv_bind E. apply Ok_inj in E. subst x. cbn [ps2_records]. rewrite map_length.
    pose proof (chunks_below 21 (skipn 2 d) ltac:(lia)). rewrite skipn_length in *. lia.
  - unfold unmarshal_conditions_g2 in E. inv_bind E. apply Ok_inj in E. subst x. cbn [co2_records].
    pose proof (collected_below unmarshal_spec_cond (chunks 5 (skipn 2 d))). pose proof (chunks_below 5 (skipn 2 d) ltac:(lia)).
    rewrite skipn_length in *. lia.
  - unfold unmarshal_units_used in E. do 2 inv_bind E. apply bind_ok in E as (l & S & E). apply bind_ok in E as (rs & M & E).
    apply Ok_inj in E. subst x. cbn [uu_records]. apply map_res_length in M. rewrite M.
    apply scanned_below in S; [|lia]. rewrite skipn_length in S. lia.
  - unfold unmarshal_gnss_places in E. do 2 inv_bind E. apply bind_ok in E as (l & S & E). apply bind_ok in E as (rs & M & E).
    apply Ok_inj in E. subst x. cbn [gps_records]. apply map_res_length in M. rewrite M.
    apply scanned_below in S; [|lia]. rewrite skipn_length in S. lia.
Qed.

(** ** The ring *)

Lemma changes_below n : forall d cs, (length d <= n)%nat -> parse_changes d = Ok cs -> (2 * length cs <= length d)%nat.
Proof.
  induction n as [|n IH]; intros d cs L E.
  - destruct d; [|cbn in L; lia]. apply Ok_inj in E. subst. cbn. lia.
  - destruct d as [|b0 [|b1 t]]; try (apply Ok_inj in E; subst; cbn; lia).
    cbn [parse_changes] in E. cbn [length] in *. destruct (_ || _).
    + apply IH in E; lia.
    + apply bind_ok in E as (c & _ & E). apply bind_ok in E as (r & R & E). apply Ok_inj in E. subst cs.
      apply IH in R; cbn [length]; lia.
Qed.

Lemma day_below r : (2 * length (day_changes (day_of r)) + 12 <= length r)%nat \/ day_changes (day_of r) = [].
Proof.
  unfold day_of. destruct (parse_day r) as [x| |] eqn:E; auto. left. unfold parse_day in E.
  apply bind_ok in E as ([] & G & E). do 2 inv_bind E. apply bind_ok in E as (cs & C & E). apply Ok_inj in E. subst x.
  cbn [day_changes]. apply (changes_below (length (skipn 12 r))) in C; auto. rewrite skipn_length in C.
  unfold guard in G. destruct (Nat.ltb_spec (length r) 12); [discriminate|]. lia.
Qed.

(** The positions on the way through the ring. *)
Inductive passes (buf : bytes) : Z -> list Z -> Z -> Prop :=
| passes_nil pos : passes buf pos [] pos
| passes_cons pos prev cur ps q : header_at buf pos prev cur -> 4 <= cur ->
    passes buf (older (Z.of_nat (length buf)) pos prev) ps q -> passes buf pos (pos :: ps) q.

Lemma visits_passes buf pos rs q : visits buf pos rs q -> exists ps, passes buf pos ps q /\ length ps = length rs.
Proof.
  induction 1 as [pos|pos prev cur r rs q H C R O V (ps & P & L)].
  - exists []. split; constructor.
  - exists (pos :: ps). split; [eapply passes_cons; eauto|]. cbn. now f_equal.
Qed.

Lemma passes_from buf pos ps q : passes buf pos ps q -> forall p, In p ps ->
  exists qs, passes buf p qs q /\ (length qs <= length ps)%nat.
Proof.
  induction 1 as [pos|pos prev cur ps q H C P IH]; intros p I; [contradiction|]. destruct I as [<-|I].
  - exists (pos :: ps). split; [eapply passes_cons; eauto|lia].
  - destruct (IH p I) as (qs & Q & L). exists qs. split; auto. cbn. lia.
Qed.

Lemma passes_same buf pos ps q : passes buf pos ps q -> chain_end buf q -> forall qs, passes buf pos qs q -> ps = qs.
Proof.
  induction 1 as [pos|pos prev cur ps q H C P IH]; intros N qs Q.
  - inversion Q as [|? prev cur ? ? H C]; subst; auto. specialize (N _ _ H). lia.
  - inversion Q as [|? prev' cur' qs' ? H' C' P']; subst.
    + specialize (N _ _ H). lia.
    + f_equal. apply IH; auto. replace prev with prev'; auto. destruct H as (_ & _ & -> & _), H' as (_ & _ & -> & _). reflexivity.
Qed.

Lemma passes_once buf pos ps q : passes buf pos ps q -> chain_end buf q -> NoDup ps.
Proof.
  induction 1 as [pos|pos prev cur ps q H C P IH]; intros N; constructor; auto.
  intros I. destruct (passes_from _ _ _ _ P pos I) as (qs & Q & L).
  assert (E : pos :: ps = qs) by (eapply passes_same; [eapply passes_cons; eauto|auto|auto]). subst qs. cbn in L. lia.
Qed.

Lemma passes_inside buf pos ps q : passes buf pos ps q -> Forall (fun p => 0 <= p /\ p + 4 <= Z.of_nat (length buf)) ps.
Proof. induction 1 as [pos|pos prev cur ps q H C P IH]; constructor; auto. destruct H as (? & ? & _). auto. Qed.

Lemma few_positions (m : nat) ps : NoDup ps -> Forall (fun p => 0 <= p < Z.of_nat m) ps -> (length ps <= m)%nat.
Proof.
  intros N F. rewrite <- (seq_length m 0), <- (map_length Z.of_nat (seq 0 m)). apply NoDup_incl_length; auto.
  intros p I. rewrite Forall_forall in F. specialize (F p I). apply in_map_iff. exists (Z.to_nat p).
  split; [lia|]. apply in_seq. lia.
Qed.

Lemma activity_below d a : bytes_ok d -> unmarshal_activity d = Ok a ->
  (length (act_days a) <= 365)%nat /\ (act_days a = [] \/ length (act_days a) + 7 <= length d)%nat /\
  Forall (fun r => Z.of_nat (length (day_changes r)) <= 32761) (act_days a).
Proof.
  intros B E. destruct (C44_activity_bounded d B) as (_ & H & _). destruct (H a E) as (L5 & L & _ & _ & P).
  split; [exact L|]. pose proof (bytes_ok_skipn 4 d B) as B'.
  apply (proj1 (C44_ring_terminates (skipn 4 d) (be16 d 2) B')) in P as (rs & q & V & _ & N & ->).
  rewrite rev_length, map_length in *. split.
  - destruct rs as [|r0 rs0]; [left; reflexivity|right]. destruct (visits_passes _ _ _ _ V) as (ps & P & LP).
    pose proof (passes_inside _ _ _ _ P) as I. rewrite skipn_length in I.
    assert (LL : (length ps <= length d - 4 - 3)%nat).
    { apply few_positions; [now apply (passes_once _ _ _ _ P)|]. eapply Forall_impl; [|exact I]. cbv beta. intros p Q. lia. }
    destruct ps as [|p ps]; [discriminate LP|]. apply Forall_inv in I. lia.
  - rewrite Forall_forall. intros r I. apply in_rev in I. apply in_map_iff in I as (b & <- & I).
    assert (LB : Z.of_nat (length b) < 65536).
    { clear - V I B'. induction V as [|pos prev cur r rs q H C R O V IH]; [contradiction|]. destruct I as [->|I]; auto.
      destruct H as (_ & _ & _ & ->). pose proof (be16_range (skipn 4 d) (Z.to_nat pos + 2) B'). lia. }
    destruct (day_below b) as [D|D]; [lia|]. rewrite D. cbn. lia.
Qed.

(** ** Sums over a dump *)

Definition weigh (us : list dumped) : nat := list_sum (map (fun u => length (u_val u)) us).

Lemma dump_length us : (weigh us <= length (dump us))%nat.
Proof.
  unfold weigh, dump. induction us as [|u us IH]; cbn [map flat_map concat]; [apply Nat.le_0_l|].
  change (list_sum (length (u_val u) :: ?l)) with (length (u_val u) + list_sum l)%nat.
  rewrite map_app, concat_app, app_length. unfold u_tlvs at 1. cbn [map concat List.app]. rewrite app_length.
  unfold enc at 1. cbn [t_val List.app length]. cbn [list_sum fold_right] in *. unfold list_sum in *. lia.
Qed.

Definition of_slot (s : slot) (u : dumped) : bool :=
  match u_field u with Some t => if slot_eq_dec s t then true else false | None => false end.

Lemma weigh_filter s us : weigh us = (weigh (filter (of_slot s) us) + weigh (filter (fun u => negb (of_slot s u)) us))%nat.
Proof.
  unfold weigh, list_sum. induction us as [|u us IH]; cbn [filter map fold_right]; [reflexivity|].
  destruct (of_slot s u); cbn [negb map fold_right]; lia.
Qed.

Lemma weigh_in u us : In u us -> (length (u_val u) <= weigh us)%nat.
Proof.
  unfold weigh, list_sum. induction us as [|v us IH]; cbn [map fold_right]; [contradiction|]. intros [->|I]; [lia|]. apply IH in I. lia.
Qed.

Lemma slots_below (w : slot -> nat) ss : NoDup ss -> forall us,
  (forall s, In s ss -> w s = 0%nat \/ exists u, In u us /\ u_field u = Some s /\ (w s <= length (u_val u))%nat) ->
  (list_sum (map w ss) <= weigh us)%nat.
Proof.
  induction 1 as [|s ss N D IH]; intros us H; [apply Nat.le_0_l|].
  change (list_sum (map w (s :: ss))) with (w s + list_sum (map w ss))%nat. rewrite (weigh_filter s us).
  apply Nat.add_le_mono.
  - destruct (H s (or_introl eq_refl)) as [->|(u & I & U & L)]; [lia|].
    etransitivity; [exact L|]. apply weigh_in. apply filter_In. split; auto. unfold of_slot. rewrite U. now destruct (slot_eq_dec s s).
  - apply IH. intros t I. destruct (H t (or_intror I)) as [->|(u & J & U & L)]; [now left|right]. exists u. split; auto.
    apply filter_In. split; auto. unfold of_slot. rewrite U. destruct (slot_eq_dec s t); [subst; contradiction|reflexivity].
Qed.

Lemma all_slots_once : NoDup all_slots.
Proof. unfold all_slots. repeat (constructor; [cbn [In]; intuition discriminate|]). constructor. Qed.

Lemma all_slots_all s : In s all_slots.
Proof. destruct s; cbn; repeat (try (left; reflexivity); right). Qed.

(** ** Vehicle units *)

Lemma eaten_length {X} (un : bytes -> res X) n k d xs r : (0 < n)%nat -> eat_records un n k d = Ok (xs, r) ->
  (length xs + length r <= length d)%nat.
Proof.
  intros N E. apply eat_records_inv in E as (bs & -> & _ & L & Q). rewrite app_length.
  assert (length xs = length bs) as -> by (symmetry; clear - Q; now induction Q; cbn; f_equal).
  assert (length bs <= length (concat bs))%nat; [|lia].
  clear - L N. induction L as [|b bs L _ IH]; cbn [concat length]; [lia|]. rewrite app_length. lia.
Qed.

Ltac gulp E := let b := fresh "b" in let d := fresh "d" in let U := fresh "U" in
  apply bind_ok in E as ([b d] & U & E); first [apply eat_inv in U as [-> U]|apply eaten_length in U; [|lia]].

Lemma overview_below cm d o : unmarshal_overview_gen1 cm d = Ok o -> (overview_entries o <= length d)%nat.
Proof.
  intros E. unfold unmarshal_overview_gen1 in E. cbv zeta in E.
  gulp E. gulp E. gulp E. inv_bind E. gulp E. inv_bind E. gulp E. inv_bind E. gulp E. do 2 inv_bind E. gulp E. gulp E. do 3 inv_bind E.
  gulp E. inv_bind E. gulp E. gulp E. inv_bind E. gulp E. gulp E. inv_bind E. apply Ok_inj in E. subst o.
  unfold overview_entries. cbn [ov_downloads ov_locks ov_controls length].
  repeat rewrite app_length in *. lia.
Qed.

Lemma activities_below cm d a : unmarshal_activities_gen1 cm d = Ok a -> (day_of_vu_entries a <= length d)%nat.
Proof.
  intros E. unfold unmarshal_activities_gen1 in E. cbv zeta in E.
  gulp E. inv_bind E. gulp E. inv_bind E. gulp E. gulp E. gulp E. gulp E. gulp E. gulp E. gulp E. gulp E. gulp E. inv_bind E.
  apply Ok_inj in E. subst a.
  unfold day_of_vu_entries. cbn [ac_iw ac_changes ac_places ac_conditions].
  repeat rewrite app_length in *. lia.
Qed.

Definition heavy (vs : list bytes) : nat := list_sum (map (fun v => 2 + length v)%nat vs).

Lemma heavy_values ks ts : NoDup ks ->
  (list_sum (map (fun k => heavy (Props_Vu.values k ts)) ks) <= length (Props_Vu.download ts))%nat.
Proof.
  intros N. induction ts as [|[k0 v] ts IH].
  - cbn. induction ks as [|k ks IH]; [apply Nat.le_refl|]. cbn. apply IH. now inversion N.
  - change (Props_Vu.download ((k0, v) :: ts)) with ((0x76 :: k0 :: v) ++ Props_Vu.download ts). rewrite app_length. cbn [length].
    assert (H : (list_sum (map (fun k => heavy (Props_Vu.values k ((k0, v) :: ts))) ks) <=
             2 + length v + list_sum (map (fun k => heavy (Props_Vu.values k ts)) ks))%nat); [|eapply Nat.le_trans; [exact H|]; apply (Nat.add_le_mono (2 + length v) (2 + length v)); [apply Nat.le_refl|exact IH]].
    clear IH. assert (S : forall k, heavy (Props_Vu.values k ((k0, v) :: ts)) =
      ((if (k0 =? k)%Z then 2 + length v else 0) + heavy (Props_Vu.values k ts))%nat).
    { intros k. unfold Props_Vu.values. cbn [filter fst]. destruct (k0 =? k); reflexivity. }
    assert (Z0 : forall l, ~ In k0 l -> list_sum (map (fun k => heavy (Props_Vu.values k ((k0, v) :: ts))) l) = list_sum (map (fun k => heavy (Props_Vu.values k ts)) l)).
    { intros l I. f_equal. apply map_ext_in. intros k J. rewrite S. destruct (Z.eqb_spec k0 k); [subst; contradiction|reflexivity]. }
    induction N as [|k ks M N IH]; [apply Nat.le_0_l|].
    assert (C : forall f : Z -> nat, list_sum (map f (k :: ks)) = (f k + list_sum (map f ks))%nat) by reflexivity.
    rewrite !C, S. destruct (Z.eqb_spec k0 k) as [->|D]; [rewrite Z0 by auto|]; lia.
Qed.

Lemma heavy_sum {X} (w : X -> nat) (raw : X -> bytes) l : Forall (fun x => (w x <= 2 + length (raw x))%nat) l ->
  (list_sum (map w l) <= heavy (map raw l))%nat.
Proof. unfold heavy, list_sum. induction 1; cbn [map fold_right]; lia. Qed.

Lemma heavy_count {X} (raw : X -> bytes) l : (length l <= heavy (map raw l))%nat.
Proof. unfold heavy, list_sum. induction l; cbn [map fold_right length]; lia. Qed.

Lemma heavy_last vs : (heavy (Props_Vu.last_one vs) <= heavy vs)%nat.
Proof.
  unfold Props_Vu.last_one. destruct (rev vs) as [|x r] eqn:R; [apply Nat.le_0_l|].
  rewrite <- (rev_involutive vs), R. cbn [rev]. unfold heavy. rewrite map_app. unfold list_sum. rewrite fold_right_app.
  generalize (map (fun v : bytes => 2 + length v)%nat (rev r)). intros l. induction l; cbn [map fold_right] in *; lia.
Qed.

(** * C103 *)

(** For every accepted file: a vehicle unit file or a raw card file has no more
    entries than bytes; nor has a driver card outside of the activities; a driver's
    activities have at most 365 days, at most one per byte, and at most 32761
    changes per day.  Missing: a bound of the changes by the size of the file. *)
Theorem C103_size_partial : forall cm d f, bytes_ok d -> unmarshal_file cm d = Ok f ->
  (forall v, file_vu f = Some v -> (vu_entries v <= length d)%nat) /\
  (forall rs, file_raw_card f = Some rs -> (5 * length rs <= length d)%nat) /\
  (forall c, file_driver_card f = Some c ->
     (list_sum (map (card_entries c) (filter (fun s => negb (is_activity s)) all_slots)) <= length d)%nat /\
     forall x sg, slot_of_card c S_activity = Some (x, sg) \/ slot_of_card c S2_activity = Some (x, sg) ->
       (length (act_days x) <= 365)%nat /\ (length (act_days x) <= length d)%nat /\
       Forall (fun r => Z.of_nat (length (day_changes r)) <= 32761) (act_days x)).
Proof.
  intros cm d f B E. destruct (proj1 (C01_dispatch cm d B) f E) as [(v & ->)|[(c & ->)|(rs & ->)]]; cbn [file_vu file_driver_card file_raw_card];
    (split; [intros v' Q|split; [intros rs' Q|intros c' Q]]); try discriminate; injection Q as <-.
  - destruct (Props_Vu.vu_download cm d v B E) as (_ & ts & -> & W & [(g & G & P & BU)|[[G _]|(G & _ & _)]]); injection G as ->.
    + destruct BU as (T & R1 & R2 & R3 & R4 & R5 & P1 & P2 & _).
      pose proof (heavy_values [1; 2; 3; 4; 5] ts ltac:(repeat (constructor; [cbn [In]; lia|]); constructor)) as H.
      cbn [map] in H. unfold list_sum in H. cbn [fold_right] in H. cbn [vu_entries].
      pose proof (heavy_sum overview_entries ov_raw (Props_Vu.opt_list (g1_overview g))) as H1. rewrite R1 in H1. pose proof (heavy_last (Props_Vu.values 1 ts)).
      pose proof (heavy_sum day_of_vu_entries ac_raw (g1_activities g)) as H2. rewrite R2 in H2.
      pose proof (heavy_count rs_raw (g1_events g)) as H3. rewrite R3 in H3.
      pose proof (heavy_count rs_raw (g1_speed g)) as H4. rewrite R4 in H4.
      pose proof (heavy_count rs_raw (g1_technical g)) as H5. rewrite R5 in H5.
      assert (A1 : Forall (fun x => (overview_entries x <= 2 + length (ov_raw x))%nat) (Props_Vu.opt_list (g1_overview g))).
      { eapply Forall_impl; [|exact P1]. cbv beta. intros o O. apply overview_below in O. lia. }
      assert (A2 : Forall (fun x => (day_of_vu_entries x <= 2 + length (ac_raw x))%nat) (g1_activities g)).
      { eapply Forall_impl; [|exact P2]. cbv beta. intros o O. apply activities_below in O. lia. }
      specialize (H1 A1). specialize (H2 A2). lia.
    + pose proof (heavy_values [0x24] ts ltac:(repeat (constructor; [cbn [In]; lia|]); constructor)) as H.
      cbn [map] in H. unfold list_sum in H. cbn [fold_right] in H. cbn [vu_entries]. unfold Props_Vu.gen2_message, gen2_entries.
      cbn [g2_activities g2_events g2_speed g2_technical length].
      pose proof (heavy_count (fun v => v) (Props_Vu.values 0x24 ts)) as H1. rewrite map_id in H1. lia.
    + pose proof (heavy_values [0x24] ts ltac:(repeat (constructor; [cbn [In]; lia|]); constructor)) as H.
      cbn [map] in H. unfold list_sum in H. cbn [fold_right] in H. cbn [vu_entries]. unfold Props_Vu.gen2_message, gen2_entries.
      cbn [g2_activities g2_events g2_speed g2_technical length].
      pose proof (heavy_count (fun v => v) (Props_Vu.values 0x24 ts)) as H1. rewrite map_id in H1. lia.
  - destruct (accepted_bytes cm d c B E) as (us & V & D & A).
    destruct (C10_applications_partial cm us c V A) as (H & _). split.
    + etransitivity; [|rewrite D; apply dump_length]. apply slots_below.
      * apply NoDup_filter, all_slots_once.
      * intros s I. apply filter_In in I as [_ N]. unfold card_entries. destruct (slot_of_card c s) as [[x sg]|] eqn:X; [right|now left].
        destruct (H s x sg X) as (u & J & U & _ & F & _). exists u. split; auto. split; auto.
        apply (content_below cm s (u_val u)); auto. now destruct (is_activity s).
    + intros x sg [X|X]; [destruct (H S_activity x sg X) as (u & J & U & _ & F & _)|destruct (H S2_activity x sg X) as (u & J & U & _ & F & _)];
        assert (BU : bytes_ok (u_val u)) by (rewrite Forall_forall in V; apply V; auto);
        destruct (activity_below (u_val u) x BU U) as (L & K & C); split; auto; split; auto;
        (etransitivity; [|rewrite D; apply dump_length]); (etransitivity; [|apply (weigh_in u us J)]);
        (destruct K as [K|K]; [rewrite K; cbn; lia|lia]).
  - unfold unmarshal_file in E. destruct (_ <? 2)%nat; [discriminate|].
    destruct (_ =? 118); [apply bind_ok in E as (v & _ & E); discriminate|].
    destruct (_ =? 2); [|discriminate]. apply bind_ok in E as (rs' & R & E).
    destruct (_ =? DRIVER_CARD); [apply bind_ok in E as (c & _ & E); discriminate|].
    apply Ok_inj in E. injection E as ->. apply raw_card_inv in R as (ts & _ & -> & ->); auto.
    rewrite map_length. unfold encs. clear. induction ts as [|t ts IH]; [apply Nat.le_refl|]. cbn [map concat length].
    rewrite app_length. unfold enc at 1. cbn [List.app length]. lia.
Qed.
Print Assumptions C103_size_partial.

(** The record of one day is longer than the ring it stands in: the ring is read
    again and again. *)
Definition endless_day : dumped :=
  mkDumped 0x0504 0 ([0; 0; 0; 0] ++ [0; 0; 0x0F; 0xFC; 0; 1; 0; 1; 0; 1; 0; 1; 0; 1; 0; 1]) None.

(** So the number of entries is not bounded by the number of bytes: a card of 55
    bytes with more than 1700 changes in one day. *)
Theorem C103_size_refuted : exists us c, Forall dumped_ok us /\ accepted no_charmap us c /\
  length (dump us) = 55%nat /\ 1700 < Z.of_nat (card_entries c S_activity).
Proof.
  set (us := [icc_unit; endless_day]).
  destruct (driver_ok_accepted us) as (V & c & A); [vm_compute; reflexivity|].
  assert (Q := A). apply accepted_iff in Q as (os & _ & _ & G & E); auto.
  destruct (card_last no_charmap us os S_activity endless_day [icc_unit] [] G) as (x & X & _ & S);
    [reflexivity|reflexivity|constructor|].
  exists us, c. split; auto. split; auto. split; [vm_compute; reflexivity|].
  unfold card_entries. replace (slot_of_card c S_activity) with (Some (x, @None bytes)) by (subst c; symmetry; exact S).
  assert (W : match unmarshal_activity (u_val endless_day) with Ok x => 1700 <? Z.of_nat (entries S_activity x) | _ => false end = true)
    by (vm_compute; reflexivity).
  cbn [unmarshal_content] in X. rewrite X in W. now apply Z.ltb_lt.
Qed.
Print Assumptions C103_size_refuted.

(** Files with entries. *)
Example C103_example :
  match unmarshal_file no_charmap Props_Download.five with
  | Ok f => match file_vu f with Some v => (3 <? vu_entries v)%nat | None => false end
  | _ => false
  end = true /\
  exists us c, Forall dumped_ok us /\ accepted no_charmap us c /\ card_entries c S2_conditions = 2%nat.
Proof.
  split; [vm_compute; reflexivity|].
  set (u := mkDumped 0x0522 2 ([0; 1] ++ [0; 0; 0; 1; 1] ++ [0; 0; 0; 2; 2]) None).
  set (us := [icc_unit; u]).
  destruct (driver_ok_accepted us) as (V & c & A); [vm_compute; reflexivity|].
  assert (Q := A). apply accepted_iff in Q as (os & _ & _ & G & E); auto.
  destruct (card_last no_charmap us os S2_conditions u [icc_unit] [] G) as (x & X & _ & S);
    [reflexivity|reflexivity|constructor|].
  exists us, c. split; auto. split; auto.
  unfold card_entries. replace (slot_of_card c S2_conditions) with (Some (x, @None bytes)) by (subst c; symmetry; exact S).
  assert (W : match unmarshal_conditions_g2 (u_val u) with Ok x => entries S2_conditions x | _ => 0%nat end = 2%nat)
    by (vm_compute; reflexivity).
  cbn [unmarshal_content] in X. now rewrite X in W.
Qed.
