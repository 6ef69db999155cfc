(** When two files of a driver card are read as the same message. *)

From Verif Require Import Base Enums Chunks Scanner DDScalar Utf8 DDString DDRecord P_String RawTypes Field P_Scanner P_ScanFinal Props_Scalar.
From Verif Require Import CardBasic P_Basic CardRecords P_Record P_Records Props_Records Props_ScanExact CardIdent P_Ident.
From Verif Require Import CardActivity Cert P_Cert DriverCard P_Driver.

(** ** Values *)

Lemma be_inj a b : bytes_ok a -> bytes_ok b -> length a = length b -> be a = be b -> a = b.
Proof.
  intros A B L E. rewrite <- (to_be_be (length a) a A eq_refl), <- (to_be_be (length a) b B (eq_sym L)). now rewrite E.
Qed.

Lemma time_inj a b t : bytes_ok a -> bytes_ok b -> unmarshal_time a = Ok t -> unmarshal_time b = Ok t -> a = b.
Proof.
  intros A B E1 E2. unfold unmarshal_time in *. apply bind_ok in E1 as (? & G1 & E1). apply bind_ok in E2 as (? & G2 & E2).
  apply guard_ok in G1, G2. apply Nat.eqb_eq in G1, G2. apply be_inj; auto; [congruence|].
  destruct (Z.eqb_spec (be a) 0), (Z.eqb_spec (be b) 0); apply Ok_inj in E1, E2; subst; try discriminate; [congruence|].
  now injection E2.
Qed.

Lemma ia5_inj a b s : unmarshal_ia5 a = Ok s -> unmarshal_ia5 b = Ok s -> a = b.
Proof.
  unfold unmarshal_ia5. destruct (length a =? 0)%nat; [discriminate|]. destruct (length b =? 0)%nat; [discriminate|].
  intros E1 E2. apply Ok_inj in E1, E2. subst s. now injection E2.
Qed.

Lemma string_inj cm a b s : unmarshal_string_value cm a = Ok s -> unmarshal_string_value cm b = Ok s -> a = b.
Proof.
  unfold unmarshal_string_value. destruct (length a <? 2)%nat; [discriminate|]. destruct (length b <? 2)%nat; [discriminate|].
  intros E1 E2. apply Ok_inj in E1, E2. subst s. now injection E2.
Qed.

Lemma csv_inj a b s : unmarshal_csv a = Ok s -> unmarshal_csv b = Ok s -> a = b.
Proof.
  intros E1 E2. unfold unmarshal_csv in *. apply bind_ok in E1 as (? & _ & E1). apply bind_ok in E2 as (? & _ & E2).
  apply Ok_inj in E1, E2. subst s. now injection E2.
Qed.

Lemma date_inj a b s : unmarshal_date a = Ok s -> unmarshal_date b = Ok s -> a = b.
Proof.
  intros E1 E2. unfold unmarshal_date in *. apply bind_ok in E1 as (? & _ & E1). apply bind_ok in E2 as (? & _ & E2).
  apply Ok_inj in E1, E2. subst s. now injection E2.
Qed.

Lemma month_year_inj a b s : unmarshal_month_year a = Ok s -> unmarshal_month_year b = Ok s -> a = b.
Proof.
  intros E1 E2.
  assert (R : forall d, unmarshal_month_year d = Ok s -> my_raw s = d).
  { intros d E. unfold unmarshal_month_year in E. apply bind_ok in E as (? & _ & E). destruct (decode_bcd d); [|apply Ok_inj in E; now subst s|discriminate].
    destruct (0 <? _); apply Ok_inj in E; now subst s. }
  now rewrite <- (R a E1), <- (R b E2).
Qed.

Lemma control_type_inj a b s : unmarshal_control_type a = Ok s -> unmarshal_control_type b = Ok s -> a = b.
Proof.
  intros E1 E2. unfold unmarshal_control_type in *. apply bind_ok in E1 as (? & _ & E1). apply bind_ok in E2 as (? & _ & E2).
  apply Ok_inj in E1, E2. subst s. now injection E2.
Qed.

Lemma nodup_keys (T : enum_table) v a b : NoDup (map fst T) -> In (v, Some a) T -> In (v, Some b) T -> a = b.
Proof.
  induction T as [|[w q] T IH]; intros N I J; [destruct I|]. cbn [map fst] in N. inversion N as [|? ? N1 N2]; subst.
  assert (K : forall x, In (w, Some x) T -> False) by (intros x X; apply N1; apply (in_map fst) in X; exact X).
  destruct I as [I|I], J as [J|J].
  - congruence.
  - injection I as -> _. destruct (K _ J).
  - injection J as -> _. destruct (K _ I).
  - now apply IH.
Qed.

Lemma enum_inj T a b v : NoDup (map fst T) -> unmarshal_enum T a = Ok v -> unmarshal_enum T b = Ok v -> a = b.
Proof. intros N E1 E2. apply unmarshal_enum_sound in E1, E2. now apply (nodup_keys T v). Qed.

Ltac nodup_now := apply (NoDup_count_occ' Z.eq_dec); let x := fresh in let H := fresh in intros x H; vm_compute in H;
  repeat (destruct H as [<-|H]; [vm_compute; reflexivity|]); destruct H.

Lemma clock_stop_keys : NoDup (map fst clock_stop_mode_table).
Proof. nodup_now. Qed.
Lemma equipment_keys : NoDup (map fst equipment_type_table).
Proof. nodup_now. Qed.
Lemma event_fault_keys : NoDup (map fst event_fault_type_table).
Proof. nodup_now. Qed.
Lemma nation_keys : NoDup (map fst nation_numeric_table).
Proof. nodup_now. Qed.

Lemma int24_inj a b : bytes_ok a -> bytes_ok b -> length a = 3%nat -> length b = 3%nat -> read_int24 a = read_int24 b -> a = b.
Proof. intros A B LA LB E. rewrite <- (int24_round_trip a A LA), <- (int24_round_trip b B LB). now rewrite E. Qed.

(** ** Pieces of files *)

Lemma grow (d e : bytes) n m : sub d 0 n = sub e 0 n -> sub d n m = sub e n m -> sub d 0 (n + m) = sub e 0 (n + m).
Proof. intros A B. rewrite <- !(sub_join _ 0 n m n) by auto. now rewrite A, B. Qed.

Lemma grow_from (d e : bytes) i n m : sub d i n = sub e i n -> sub d (i + n) m = sub e (i + n) m -> sub d i (n + m) = sub e i (n + m).
Proof. intros A B. rewrite <- !(sub_join _ i n m (i + n)) by auto. now rewrite A, B. Qed.

Lemma one (d e : bytes) n : (n < length d)%nat -> (n < length e)%nat -> nth n d 0 = nth n e 0 -> sub d n 1 = sub e n 1.
Proof. intros L M E. now rewrite !sub_1, E by auto. Qed.

Lemma one_inv (d e : bytes) n : sub d n 1 = sub e n 1 -> nth n d 0 = nth n e 0.
Proof. intros E. replace n with (n + 0)%nat by lia. now rewrite <- !(nth_sub _ n 1 0 0), E by lia. Qed.

Lemma within (d e : bytes) i n j m : sub d i n = sub e i n -> (j + m <= n)%nat -> sub d (i + j) m = sub e (i + j) m.
Proof. intros E L. rewrite <- !(sub_sub _ i n j m) by auto. now rewrite E. Qed.

Lemma within0 (d e : bytes) n j m : sub d 0 n = sub e 0 n -> (j + m <= n)%nat -> sub d j m = sub e j m.
Proof. intros E L. apply (within d e 0 n j m E L). Qed.

Lemma nth_within (d e : bytes) i n j : sub d i n = sub e i n -> (j < n)%nat -> nth (i + j) d 0 = nth (i + j) e 0.
Proof. intros E L. rewrite <- !(nth_sub _ i n j 0) by auto. now rewrite E. Qed.

Lemma be_piece (d e : bytes) i n : bytes_ok d -> bytes_ok e -> (i + n <= length d)%nat -> (i + n <= length e)%nat ->
  be (sub d i n) = be (sub e i n) -> sub d i n = sub e i n.
Proof. intros. apply be_inj; auto using bytes_ok_sub. now rewrite !sub_length. Qed.

(** ** Nations *)

(** Two codes are read alike if they are equal or both unknown. *)
Definition nations_alike (a b : Z) : Prop := a = b \/ (~ nation_known a /\ ~ nation_known b).

Definition nation_read (b : Z) : Z := match unmarshal_enum nation_numeric_table b with Ok n => n | _ => ENUM_UNRECOGNIZED end.

Lemma nation_read_known b : nation_known b -> In (nation_read b, Some b) nation_numeric_table.
Proof. intros K. unfold nation_read. destruct (nation_known_enum b K) as (v & E & _). rewrite E. now apply unmarshal_enum_sound. Qed.

Lemma nation_read_unknown b : ~ nation_known b -> nation_read b = ENUM_UNRECOGNIZED.
Proof.
  intros K. unfold nation_read. destruct (unmarshal_enum nation_numeric_table b) as [v|e|] eqn:E; auto.
  exfalso. apply K. exists v. now apply unmarshal_enum_sound.
Qed.

Lemma not_unrecognized b : ~ In (ENUM_UNRECOGNIZED, Some b) nation_numeric_table.
Proof.
  intros I. assert (X : existsb (fun p => (fst p =? ENUM_UNRECOGNIZED) && match snd p with Some _ => true | None => false end) nation_numeric_table = false)
    by (vm_compute; reflexivity).
  assert (Y : existsb (fun p => (fst p =? ENUM_UNRECOGNIZED) && match snd p with Some _ => true | None => false end) nation_numeric_table = true).
  { apply existsb_exists. exists (ENUM_UNRECOGNIZED, Some b). split; [exact I|reflexivity]. }
  congruence.
Qed.

Lemma nation_read_alike a b : nation_read a = nation_read b <-> nations_alike a b.
Proof.
  destruct (nation_known_dec a) as [A|A], (nation_known_dec b) as [B|B]; unfold nations_alike.
  - pose proof (nation_read_known a A) as IA. pose proof (nation_read_known b B) as IB. split.
    + intros E. left. rewrite E in IA. exact (nodup_keys _ _ _ _ nation_keys IA IB).
    + intros [->|[N _]]; [reflexivity|contradiction].
  - pose proof (nation_read_known a A) as IA. rewrite (nation_read_unknown b B). split.
    + intros E. rewrite E in IA. destruct (not_unrecognized _ IA).
    + intros [->|[N _]]; contradiction.
  - pose proof (nation_read_known b B) as IB. rewrite (nation_read_unknown a A). split.
    + intros E. rewrite <- E in IB. destruct (not_unrecognized _ IB).
    + intros [->|[_ N]]; contradiction.
  - rewrite !nation_read_unknown by auto. split; auto.
Qed.

Lemma vreg_read cm d v : unmarshal_vreg cm d = Ok v -> length d = 15%nat /\
  exists s, unmarshal_string_value cm (sub d 1 14) = Ok s /\ v = mkVR (nation_read (nth 0 d 0)) (Some s).
Proof.
  intros E. unfold unmarshal_vreg in E. apply bind_ok in E as (? & G & E). apply guard_ok, Nat.eqb_eq in G. split; auto.
  fold (nation_read (nth 0 d 0)) in E. cbv zeta in E. apply bind_ok in E as (s & S & E). apply Ok_inj in E. exists s. auto.
Qed.

Lemma vreg_alike cm d e v w : unmarshal_vreg cm d = Ok v -> unmarshal_vreg cm e = Ok w ->
  (v = w <-> nations_alike (nth 0 d 0) (nth 0 e 0) /\ sub d 1 14 = sub e 1 14).
Proof.
  intros E1 E2. apply vreg_read in E1 as (_ & s & S1 & ->). apply vreg_read in E2 as (_ & t & S2 & ->). rewrite <- nation_read_alike. split.
  - intros E. injection E as E ->. split; [exact E|]. exact (string_inj cm _ _ _ S1 S2).
  - intros [-> E]. rewrite E in S1. rewrite S1 in S2. apply Ok_inj in S2. now subst t.
Qed.

(** ** Files of fixed size *)

(** The first [n] bytes are the same. *)
Definition same_front (n : nat) (d e : bytes) : Prop := firstn n d = firstn n e.

(** The first [n] bytes are the same, but for the nation in byte [p], which need only
    be alike. *)
Definition same_but_nation (n p : nat) (d e : bytes) : Prop :=
  firstn p d = firstn p e /\ nations_alike (nth p d 0) (nth p e 0) /\ sub d (p + 1) (n - p - 1) = sub e (p + 1) (n - p - 1).

Lemma front_sub n (d e : bytes) : same_front n d e <-> sub d 0 n = sub e 0 n.
Proof. reflexivity. Qed.

Ltac opened E := repeat match type of E with bind _ _ = Ok _ => apply bind_ok in E as (? & ? & E); cbv beta zeta in E end.
Ltac sized := repeat match goal with
  | H : guard _ = Ok _ |- _ => apply guard_ok in H
  | H : negb _ = true |- _ => apply negb_true_iff in H
  | H : (_ <? _)%nat = false |- _ => apply Nat.ltb_ge in H
  | H : (_ =? _)%nat = true |- _ => apply Nat.eqb_eq in H end.

Ltac parted E := symmetry in E; injection E; clear E; intros; subst.

Ltac carry Q := match type of Q with ?l = _ =>
  repeat match goal with A : ?f = Ok _ |- _ => match f with context [l] => rewrite Q in A end end end.

Lemma icc_same d e x y : bytes_ok d -> bytes_ok e -> unmarshal_icc d = Ok x -> unmarshal_icc e = Ok y -> (x = y <-> same_front 25 d e).
Proof.
  intros B1 B2 E1 E2. rewrite front_sub. split.
  - intros <-. unfold unmarshal_icc in E1, E2. opened E1. opened E2. sized. apply Ok_inj in E1, E2. subst x.
    parted E2.
    rewrite !sub_sub in * by lia. rewrite !nth_sub in * by lia. cbn [Nat.add] in *.
    apply (grow d e 23 2); [|auto]. apply (grow d e 22 1); [|apply one; auto; lia].
    apply (grow d e 20 2); [|eapply ia5_inj; eauto]. apply (grow d e 18 2); [|eapply ia5_inj; eauto].
    apply (grow d e 17 1); [|apply one; auto; lia]. apply (grow d e 9 8); [|eapply ia5_inj; eauto].
    apply (grow d e 8 1); [|apply one; auto; lia]. apply (grow d e 7 1); [|apply one; [lia|lia|eapply enum_inj; eauto using equipment_keys]].
    apply (grow d e 5 2); [|eapply month_year_inj; eauto]. apply (grow d e 1 4); [|apply be_piece; auto; lia].
    apply one; [lia|lia|eapply enum_inj; eauto using clock_stop_keys].
  - intros E.
    assert (X : forall d, (25 <= length d)%nat -> unmarshal_icc d = unmarshal_icc (sub d 0 25)).
    { clear. intros d L. unfold unmarshal_icc. rewrite sub_length by lia. destruct (Nat.ltb_spec (length d) 25); [lia|].
      change (25 <? 25)%nat with false. rewrite !sub_sub, !nth_sub by lia. cbn [Nat.add]. reflexivity. }
    assert (L1 : (25 <= length d)%nat) by (unfold unmarshal_icc in E1; opened E1; sized; lia).
    assert (L2 : (25 <= length e)%nat) by (unfold unmarshal_icc in E2; opened E2; sized; lia).
    rewrite X in E1 by auto. rewrite X in E2 by auto. rewrite E in E1. congruence.
Qed.

Lemma ic_same d e x y : bytes_ok d -> bytes_ok e -> unmarshal_ic d = Ok x -> unmarshal_ic e = Ok y -> (x = y <-> same_front 8 d e).
Proof.
  intros B1 B2 E1 E2. unfold unmarshal_ic in *. opened E1. opened E2. sized. apply Ok_inj in E1, E2. subst. rewrite front_sub. split.
  - intros E. injection E as E1 E2. now apply (grow d e 4 4).
  - intros E. now rewrite (within0 d e 8 0 4 E), (within0 d e 8 4 4 E) by lia.
Qed.

Lemma download_same d e x y : bytes_ok d -> bytes_ok e -> unmarshal_card_download d = Ok x -> unmarshal_card_download e = Ok y ->
  (x = y <-> same_front 4 d e).
Proof.
  intros B1 B2 E1 E2. unfold unmarshal_card_download in *. opened E1. opened E2. sized. rewrite front_sub. split.
  - intros <-. eapply time_inj; eauto using bytes_ok_sub.
  - intros E. rewrite E in E1. congruence.
Qed.

Lemma app_v2_same d e x y : bytes_ok d -> bytes_ok e -> unmarshal_app_id_v2 d = Ok x -> unmarshal_app_id_v2 e = Ok y ->
  (x = y <-> same_front 4 d e).
Proof.
  intros B1 B2 E1 E2. unfold unmarshal_app_id_v2 in *. opened E1. opened E2. sized. apply Ok_inj in E1, E2. subst. rewrite front_sub. split.
  - intros E. symmetry in E. parted E. apply (grow d e 3 1); [|apply one; auto; lia]. apply (grow d e 2 1); [|apply one; auto; lia].
    apply (grow d e 1 1); apply one; auto; lia.
  - intros E. pose proof (nth_within d e 0 4) as N. cbn [Nat.add] in N. rewrite !N by (auto; lia). reflexivity.
Qed.

Lemma app_id_same d e x y : bytes_ok d -> bytes_ok e -> unmarshal_app_id d = Ok x -> unmarshal_app_id e = Ok y -> (x = y <-> d = e).
Proof.
  intros B1 B2 E1 E2. split; [|intros <-; congruence].
  intros <-. unfold unmarshal_app_id in *. opened E1. opened E2. sized. apply Ok_inj in E1, E2. subst x. parted E2.
  rewrite <- (sub_all d), <- (sub_all e). replace (length e) with 10%nat by congruence. replace (length d) with 10%nat by congruence.
  apply (grow d e 9 1); [|apply one; auto; lia]. apply (grow d e 7 2); [|apply be_piece; auto; lia].
  apply (grow d e 5 2); [|apply be_piece; auto; lia]. apply (grow d e 4 1); [|apply one; auto; lia].
  apply (grow d e 3 1); [|apply one; auto; lia]. apply (grow d e 1 2); [|eapply csv_inj; eauto].
  apply one; [lia|lia|eapply enum_inj; eauto using equipment_keys].
Qed.

Lemma app_id_g2_same d e x y : bytes_ok d -> bytes_ok e -> unmarshal_app_id_g2 d = Ok x -> unmarshal_app_id_g2 e = Ok y -> (x = y <-> d = e).
Proof.
  intros B1 B2 E1 E2. split; [|intros <-; congruence].
  intros <-. unfold unmarshal_app_id_g2 in *. opened E1. opened E2. sized. apply Ok_inj in E1, E2. subst x. parted E2.
  rewrite <- (sub_all d), <- (sub_all e). replace (length e) with 17%nat by congruence. replace (length d) with 17%nat by congruence.
  apply (grow d e 15 2); [|apply be_piece; auto; lia]. apply (grow d e 13 2); [|apply be_piece; auto; lia].
  apply (grow d e 11 2); [|apply be_piece; auto; lia]. apply (grow d e 9 2); [|apply be_piece; auto; lia].
  apply (grow d e 7 2); [|apply be_piece; auto; lia].
  apply (grow d e 5 2); [|apply be_piece; auto; lia]. apply (grow d e 4 1); [|apply one; auto; lia].
  apply (grow d e 3 1); [|apply one; auto; lia]. apply (grow d e 1 2); [|eapply csv_inj; eauto].
  apply one; [lia|lia|eapply enum_inj; eauto using equipment_keys].
Qed.

Lemma usage_same cm d e x y : bytes_ok d -> bytes_ok e -> unmarshal_current_usage cm d = Ok x -> unmarshal_current_usage cm e = Ok y ->
  (x = y <-> same_but_nation 19 4 d e).
Proof.
  intros B1 B2 E1 E2. unfold unmarshal_current_usage in *. opened E1. opened E2. sized. apply Ok_inj in E1, E2. subst.
  match goal with A : unmarshal_vreg cm _ = Ok _, B : unmarshal_vreg cm _ = Ok _ |- _ => pose proof (vreg_alike cm _ _ _ _ A B) as V end.
  rewrite !sub_sub in V by lia. rewrite !nth_sub in V by lia. cbn [Nat.add] in V. unfold same_but_nation. cbn [Nat.add Nat.sub]. split.
  - intros E. symmetry in E. parted E. destruct (proj1 V eq_refl) as [V1 V2]. split; [|auto]. apply (front_sub 4). eapply time_inj; eauto using bytes_ok_sub.
  - intros (Q1 & Q2 & Q3). change (sub d 0 4 = sub e 0 4) in Q1. 
    match goal with |- mkCU ?a (Some ?b) = mkCU ?c (Some ?d) => assert (a = c) by (carry Q1; congruence); assert (b = d) by (apply V; auto) end.
    congruence.
Qed.

Lemma licence_same cm d e x y : bytes_ok d -> bytes_ok e -> unmarshal_driving_licence cm d = Ok x -> unmarshal_driving_licence cm e = Ok y ->
  (x = y <-> same_but_nation 53 36 d e).
Proof.
  intros B1 B2 E1 E2. unfold unmarshal_driving_licence in *. opened E1. opened E2. sized. apply Ok_inj in E1, E2.
  fold (nation_read (nth 36 d 0)) in E1. fold (nation_read (nth 36 e 0)) in E2. subst. unfold same_but_nation. rewrite <- nation_read_alike. cbn [Nat.add Nat.sub].
  split.
  - intros E. symmetry in E. parted E. split; [apply (front_sub 36); eapply string_inj; eauto|]. split; [auto|]. eapply ia5_inj; eauto.
  - intros (Q1 & Q2 & Q3). change (sub d 0 36 = sub e 0 36) in Q1. carry Q1. carry Q3. congruence.
Qed.

Lemma card_number_inj a b x : length a = 16%nat -> length b = 16%nat -> unmarshal_card_number a = Ok x -> unmarshal_card_number b = Ok x -> a = b.
Proof.
  intros LA LB E1 E2.
  assert (K : forall n, length n = 16%nat -> forall m k, (m + S k <= 16)%nat -> exists s, unmarshal_ia5 (sub n m (S k)) = Ok s).
  { intros n L m k H. unfold unmarshal_ia5. rewrite sub_length by lia. cbn [Nat.eqb]. eauto. }
  assert (G : forall n x, length n = 16%nat -> unmarshal_card_number n = Ok x ->
    (exists i r w, x = (CARD_TYPE_DRIVER, CN_driver (mkDN (Some i) (Some r) (Some w))) /\
       unmarshal_ia5 (sub n 0 14) = Ok i /\ unmarshal_ia5 (sub n 14 1) = Ok r /\ unmarshal_ia5 (sub n 15 1) = Ok w) \/
    (exists o c r w, x = (CARD_TYPE_WORKSHOP, CN_owner (mkOI (Some o) (Some c) (Some r) (Some w))) /\
       unmarshal_ia5 (sub n 0 13) = Ok o /\ unmarshal_ia5 (sub n 13 1) = Ok c /\ unmarshal_ia5 (sub n 14 1) = Ok r /\
       unmarshal_ia5 (sub n 15 1) = Ok w)).
  { clear - K. intros n x L E. unfold unmarshal_card_number in E.
    destruct (K n L 0%nat 13%nat ltac:(lia)) as (i & I). destruct (K n L 14%nat 0%nat ltac:(lia)) as (r & R).
    destruct (K n L 15%nat 0%nat ltac:(lia)) as (w & W). destruct (K n L 0%nat 12%nat ltac:(lia)) as (o & O).
    destruct (K n L 13%nat 0%nat ltac:(lia)) as (c & C).
    rewrite I, R, W, O, C in E. cbn [bind] in E. destruct (_ && _); apply Ok_inj in E; [left|right].
    - exists i, r, w. auto.
    - exists o, c, r, w. auto 10. }
  rewrite <- (sub_all a), <- (sub_all b), LA, LB.
  destruct (G a x LA E1) as [(i & r & w & -> & A1 & A2 & A3)|(o & c & r & w & -> & A1 & A2 & A3 & A4)];
  destruct (G b _ LB E2) as [(i' & r' & w' & Q & C1 & C2 & C3)|(o' & c' & r' & w' & Q & C1 & C2 & C3 & C4)]; try discriminate; parted Q.
  - apply (grow a b 15 1); [|eapply ia5_inj; eauto]. apply (grow a b 14 1); eapply ia5_inj; eauto.
  - apply (grow a b 15 1); [|eapply ia5_inj; eauto]. apply (grow a b 14 1); [|eapply ia5_inj; eauto].
    apply (grow a b 13 1); eapply ia5_inj; eauto.
Qed.

Lemma identification_same cm d e x y : bytes_ok d -> bytes_ok e -> unmarshal_identification cm d = Ok x -> unmarshal_identification cm e = Ok y ->
  (x = y <-> same_but_nation 143 0 d e).
Proof.
  intros B1 B2 E1 E2. unfold unmarshal_identification in *. opened E1. opened E2. sized. apply Ok_inj in E1, E2.
  fold (nation_read (nth 0 d 0)) in E1. fold (nation_read (nth 0 e 0)) in E2. subst. unfold same_but_nation. rewrite <- nation_read_alike.
  cbn [Nat.add Nat.sub]. split.
  - intros E. symmetry in E. parted E. split; [reflexivity|]. split; [auto|].
    apply (grow_from d e 1 140 2); [|eapply ia5_inj; eauto]. apply (grow_from d e 1 136 4); [|eapply date_inj; eauto].
    apply (grow_from d e 1 100 36); [|eapply string_inj; eauto]. apply (grow_from d e 1 64 36); [|eapply string_inj; eauto].
    apply (grow_from d e 1 60 4); [|eapply time_inj; eauto using bytes_ok_sub].
    apply (grow_from d e 1 56 4); [|eapply time_inj; eauto using bytes_ok_sub].
    apply (grow_from d e 1 52 4); [|eapply time_inj; eauto using bytes_ok_sub].
    apply (grow_from d e 1 16 36); [|eapply string_inj; eauto].
    match goal with A : unmarshal_card_number _ = Ok ?p, B : unmarshal_card_number _ = Ok ?q |- _ =>
      eapply (card_number_inj _ _ p); [apply sub_length; lia|apply sub_length; lia|exact A|] ; rewrite B; f_equal; destruct p, q; cbn [fst snd] in *; congruence end.
  - intros (_ & Q2 & Q3).
    pose proof (within d e 1 142 0 16 Q3 ltac:(lia)) as P1. pose proof (within d e 1 142 16 36 Q3 ltac:(lia)) as P2.
    pose proof (within d e 1 142 52 4 Q3 ltac:(lia)) as P3. pose proof (within d e 1 142 56 4 Q3 ltac:(lia)) as P4.
    pose proof (within d e 1 142 60 4 Q3 ltac:(lia)) as P5. pose proof (within d e 1 142 64 36 Q3 ltac:(lia)) as P6.
    pose proof (within d e 1 142 100 36 Q3 ltac:(lia)) as P7. pose proof (within d e 1 142 136 4 Q3 ltac:(lia)) as P8.
    pose proof (within d e 1 142 140 2 Q3 ltac:(lia)) as P9. cbn [Nat.add] in *. clear Q3.
    carry P1. carry P2. carry P3. carry P4. carry P5. carry P6. carry P7. carry P8. carry P9. congruence.
Qed.

(** An unused control record (time zero) is kept whole. *)
Definition same_control (d e : bytes) : Prop :=
  if be (sub d 1 4) =? 0 then d = e else be (sub e 1 4) <> 0 /\ same_but_nation 46 23 d e.

Lemma control_same cm d e x y : bytes_ok d -> bytes_ok e -> unmarshal_control_activity cm d = Ok x -> unmarshal_control_activity cm e = Ok y ->
  (x = y <-> same_control d e).
Proof.
  intros B1 B2 E1 E2. unfold unmarshal_control_activity, same_control in *.
  apply bind_ok in E1 as (? & G1 & E1). apply bind_ok in E2 as (? & G2 & E2). sized.
  destruct (Z.eqb_spec (be (sub d 1 4)) 0) as [U1|U1].
  - apply Ok_inj in E1. subst x. destruct (Z.eqb_spec (be (sub e 1 4)) 0) as [U2|U2].
    + apply Ok_inj in E2. subst y. split; [intros E; now injection E|now intros ->].
    + opened E2. apply Ok_inj in E2. subst y. split; [discriminate|]. intros ->. contradiction.
  - opened E1. apply Ok_inj in E1. subst x. destruct (Z.eqb_spec (be (sub e 1 4)) 0) as [U2|U2].
    + apply Ok_inj in E2. subst y. split; [discriminate|]. tauto.
    + opened E2. apply Ok_inj in E2. subst y.
      match goal with A : unmarshal_vreg cm _ = Ok _, B : unmarshal_vreg cm _ = Ok _ |- _ => pose proof (vreg_alike cm _ _ _ _ A B) as V end.
      rewrite !sub_sub in V by lia. rewrite !nth_sub in V by lia. cbn [Nat.add] in V. unfold same_but_nation. cbn [Nat.add Nat.sub]. split.
      * intros E. symmetry in E. parted E. destruct (proj1 V eq_refl) as [V1 V2]. split; [auto|]. split; [|split; [exact V1|]].
        -- apply (front_sub 23). apply (grow d e 5 18); [|eapply ia5_inj; eauto]. apply (grow d e 1 4); [eapply control_type_inj; eauto|].
           eapply time_inj; eauto using bytes_ok_sub.
        -- apply (grow_from d e 24 18 4); [|eapply time_inj; eauto using bytes_ok_sub].
           apply (grow_from d e 24 14 4); [exact V2|eapply time_inj; eauto using bytes_ok_sub].
      * intros (_ & Q1 & Q2 & Q3). change (sub d 0 23 = sub e 0 23) in Q1.
        pose proof (within0 d e 23 0 1 Q1 ltac:(lia)) as P1. pose proof (within0 d e 23 1 4 Q1 ltac:(lia)) as P2.
        pose proof (within0 d e 23 5 18 Q1 ltac:(lia)) as P3. pose proof (within d e 24 22 14 4 Q3 ltac:(lia)) as P4.
        pose proof (within d e 24 22 18 4 Q3 ltac:(lia)) as P5. pose proof (within d e 24 22 0 14 Q3 ltac:(lia)) as P6.
        cbn [Nat.add] in *. pose proof (proj2 V (conj Q2 P6)) as VV. carry P1. carry P2. carry P3. carry P4. carry P5. congruence.
Qed.

(** ** Files of records *)

Lemma list_ext {A} (xs ys : list A) : xs = ys <-> length xs = length ys /\
  forall i x y, nth_error xs i = Some x -> nth_error ys i = Some y -> x = y.
Proof.
  split; [intros <-; split; [reflexivity|congruence]|]. revert ys. induction xs as [|x xs IH]; intros [|y ys] [L H]; try discriminate; auto.
  f_equal; [now apply (H 0%nat)|]. apply IH. split; [now injection L|]. intros i. exact (H (S i)).
Qed.

Lemma records_eq n k (d e : bytes) : (forall i, (i < k)%nat -> sub d (i * n) n = sub e (i * n) n) -> sub d 0 (k * n) = sub e 0 (k * n).
Proof.
  induction k as [|k IH]; intros H; [reflexivity|]. replace (S k * n)%nat with (k * n + n)%nat by lia. apply grow.
  - apply IH. intros i I. apply H. lia.
  - apply H. lia.
Qed.

Lemma geo_inj a b g : bytes_ok a -> bytes_ok b -> unmarshal_geo a = Ok g -> unmarshal_geo b = Ok g -> a = b.
Proof.
  intros A B E1 E2. unfold unmarshal_geo in *. opened E1. opened E2. sized. apply Ok_inj in E1, E2. subst g. parted E2.
  rewrite <- (sub_all a), <- (sub_all b). replace (length b) with 6%nat by congruence. replace (length a) with 6%nat by congruence.
  apply (grow a b 3 3); apply int24_inj; auto using bytes_ok_sub; apply sub_length; lia.
Qed.

Lemma gnss_place_inj a b g : bytes_ok a -> bytes_ok b -> unmarshal_gnss_place a = Ok g -> unmarshal_gnss_place b = Ok g -> a = b.
Proof.
  intros A B E1 E2. unfold unmarshal_gnss_place in *. opened E1. opened E2. sized. apply Ok_inj in E1, E2. subst g. parted E2.
  rewrite <- (sub_all a), <- (sub_all b). replace (length b) with 11%nat by congruence. replace (length a) with 11%nat by congruence.
  apply (grow a b 5 6); [|eapply geo_inj; eauto using bytes_ok_sub]. apply (grow a b 4 1); [|apply one; auto; lia].
  eapply time_inj; eauto using bytes_ok_sub.
Qed.

Lemma gnss_record_inj a b g : bytes_ok a -> bytes_ok b -> unmarshal_gnss_record a = Ok g -> unmarshal_gnss_record b = Ok g -> a = b.
Proof.
  intros A B E1 E2. unfold unmarshal_gnss_record in *. opened E1. opened E2. sized. apply Ok_inj in E1, E2. subst g. parted E2.
  rewrite <- (sub_all a), <- (sub_all b). replace (length b) with 18%nat by congruence. replace (length a) with 18%nat by congruence.
  apply (grow a b 15 3).
  - apply (grow a b 4 11); [|eapply gnss_place_inj; eauto using bytes_ok_sub]. eapply time_inj; eauto using bytes_ok_sub.
  - match goal with C : unmarshal_odometer _ = Ok _, D : unmarshal_odometer _ = Ok _ |- _ =>
      unfold unmarshal_odometer in C, D; opened C; opened D; apply Ok_inj in C, D; apply be_piece; auto; lia || congruence end.
Qed.

Lemma fits_18 : (2 * 18 <= start_buf_size)%nat.
Proof. pose proof start_eq. lia. Qed.

Lemma whole_length (n a b : nat) : (0 < n)%nat -> (a mod n = 0)%nat -> (b mod n = 0)%nat -> (a / n = b / n)%nat -> a = b /\ a = (a / n * n)%nat.
Proof. intros N A B E. pose proof (Nat.div_mod a n ltac:(lia)). pose proof (Nat.div_mod b n ltac:(lia)). rewrite E in *. nia. Qed.

Lemma gnss_same d e x y : bytes_ok d -> bytes_ok e -> unmarshal_gnss_places d = Ok x -> unmarshal_gnss_places e = Ok y -> (x = y <-> d = e).
Proof.
  intros B1 B2 E1 E2. split; [|intros <-; congruence].
  intros <-. unfold unmarshal_gnss_places in *. opened E1. opened E2. sized.
  match goal with C : scan_fixed 18 (skipn 2 d) = Ok ?l, D : map_res _ ?l = Ok ?rs, E : Ok (mkGPs _ ?rs) = Ok x |- _ => rename C into S1, D into M1, E into Q1 end.
  match goal with C : scan_fixed 18 (skipn 2 e) = Ok ?l, D : map_res _ ?l = Ok ?rs, E : Ok (mkGPs _ ?rs) = Ok x |- _ => rename C into S2, D into M2, E into Q2 end.
  apply Ok_inj in Q1, Q2. subst x. parted Q2.
  destruct (scanned_nth _ 18 _ _ _ ltac:(lia) fits_18 S1 M1) as [L1 N1]. destruct (scanned_nth _ 18 _ _ _ ltac:(lia) fits_18 S2 M2) as [L2 N2].
  rewrite !skipn_length in *.
  destruct (whole_length 18 (length d - 2) (length e - 2) ltac:(lia) ltac:(auto) ltac:(auto) ltac:(congruence)) as [LL LK].
  rewrite <- (firstn_skipn 2 d), <- (firstn_skipn 2 e). f_equal.
  - apply be_inj; [apply bytes_ok_firstn; auto|apply bytes_ok_firstn; auto|rewrite !firstn_length; lia|auto].
  - set (d' := skipn 2 d) in *. set (e' := skipn 2 e) in *.
    assert (LD : length d' = ((length d - 2) / 18 * 18)%nat) by (unfold d'; rewrite skipn_length; lia).
    assert (LE : length e' = ((length d - 2) / 18 * 18)%nat) by (unfold e'; rewrite skipn_length; lia).
    rewrite <- (sub_all d'), <- (sub_all e'), LD, LE. apply records_eq. intros i I. rewrite <- L1 in I.
    apply nth_error_Some in I. destruct (nth_error _ i) as [r|] eqn:R; [|congruence].
    destruct (N1 i r R) as [_ U1]. destruct (N2 i r R) as [_ U2]. cbn [fst] in U1, U2.
    eapply gnss_record_inj; eauto; apply bytes_ok_sub; unfold d', e'; now apply bytes_ok_skipn.
Qed.

(** Of the vehicle units, device and version are those of the last record that is a
    multiple of 409 places later. *)
Definition same_units (d e : bytes) : Prop :=
  length d = length e /\ firstn 2 d = firstn 2 e /\
  forall i j, last_at_place 10 409 (skipn 2 d) i j ->
    sub d (2 + i * 10) 5 = sub e (2 + i * 10) 5 /\ sub d (2 + j * 10 + 5) 5 = sub e (2 + j * 10 + 5) 5.

Lemma unit_record_alike a f b g x y : bytes_ok a -> bytes_ok b -> length f = 10%nat -> length g = 10%nat ->
  unmarshal_unit_record (a, f) = Ok x -> unmarshal_unit_record (b, g) = Ok y ->
  (x = y <-> sub a 0 5 = sub b 0 5 /\ sub f 5 5 = sub g 5 5).
Proof.
  intros A B LF LG E1 E2. unfold unmarshal_unit_record in *. cbn [fst snd] in *. opened E1. opened E2. sized. apply Ok_inj in E1, E2. subst.
  split.
  - intros E. symmetry in E. parted E. split.
    + apply (grow a b 4 1); [eapply time_inj; eauto using bytes_ok_sub|apply one; auto; lia].
    + now apply (grow_from f g 5 1 4).
  - intros [E F0]. pose proof (within0 a b 5 0 4 E ltac:(lia)) as P1. pose proof (nth_within a b 0 5 4 E ltac:(lia)) as P2.
    pose proof (within f g 5 5 0 1 F0 ltac:(lia)) as P3. pose proof (within f g 5 5 1 4 F0 ltac:(lia)) as P4. cbn [Nat.add] in *.
    carry P1. congruence.
Qed.

Lemma units_same d e x y : bytes_ok d -> bytes_ok e -> unmarshal_units_used d = Ok x -> unmarshal_units_used e = Ok y ->
  (x = y <-> same_units d e).
Proof.
  intros B1 B2 E1 E2. unfold unmarshal_units_used in *. opened E1. opened E2. sized.
  match goal with C : scan_fixed 10 (skipn 2 d) = Ok ?l, D : map_res _ ?l = Ok ?rs, E : Ok (mkUU _ ?rs) = Ok x |- _ => rename C into S1, D into M1, E into Q1 end.
  match goal with C : scan_fixed 10 (skipn 2 e) = Ok ?l, D : map_res _ ?l = Ok ?rs, E : Ok (mkUU _ ?rs) = Ok y |- _ => rename C into S2, D into M2, E into Q2 end.
  apply Ok_inj in Q1, Q2. subst x y.
  destruct (scanned_nth _ 10 _ _ _ ltac:(lia) fits_10 S1 M1) as [L1 N1]. destruct (scanned_nth _ 10 _ _ _ ltac:(lia) fits_10 S2 M2) as [L2 N2].
  match type of M1 with _ = Ok ?r => set (xs := r) in * end. match type of M2 with _ = Ok ?r => set (ys := r) in * end.
  assert (BD : bytes_ok (skipn 2 d)) by now apply bytes_ok_skipn. assert (BE : bytes_ok (skipn 2 e)) by now apply bytes_ok_skipn.
  assert (SK : forall l i n, sub (skipn 2 l) i n = sub l (2 + i) n) by (intros; apply sub_skipn).
  assert (R : length d = length e -> forall i j r s, last_at_place 10 409 (skipn 2 d) i j -> nth_error xs i = Some r -> nth_error ys i = Some s ->
    (r = s <-> sub d (2 + i * 10) 5 = sub e (2 + i * 10) 5 /\ sub d (2 + j * 10 + 5) 5 = sub e (2 + j * 10 + 5) 5)).
  { intros LL i j r s LP Er Es. destruct (N1 i r Er) as [I U1]. destruct (N2 i s Es) as [_ U2].
    destruct LP as (_ & J & SP & LP). rewrite <- places_10 in SP, LP.
    rewrite (shown_whole 10 (skipn 2 d) i j) in U1; auto using fits_10; [|lia|now rewrite skipn_length].
    rewrite (shown_whole 10 (skipn 2 e) i j) in U2; auto using fits_10; try lia; try (rewrite skipn_length in *; congruence).
    assert (JL : (2 + j * 10 + 10 <= length d)%nat).
    { rewrite skipn_length in J. pose proof (Nat.mul_div_le (length d - 2) 10 ltac:(lia)). lia. }
    assert (LF : forall l k, length l = length d -> (2 + k * 10 + 10 <= length d)%nat -> length (sub (skipn 2 l) (k * 10) 10) = 10%nat).
    { intros l k E K. rewrite SK, sub_length; auto; lia. }
    pose proof (unit_record_alike _ _ _ _ r s (bytes_ok_sub _ _ _ BD) (bytes_ok_sub _ _ _ BE)
      (LF d j eq_refl JL) (LF e j (eq_sym LL) JL) U1 U2) as Q.
    rewrite !sub_sub, !SK in Q by lia. rewrite !Nat.add_0_r, !Nat.add_assoc in Q. exact Q. }
  assert (LX : length xs = length ys -> length d = length e).
  { intros E. rewrite L1, L2, !skipn_length in E.
    destruct (whole_length 10 (length d - 2) (length e - 2) ltac:(lia) ltac:(auto) ltac:(auto) E). lia. }
  unfold same_units. split.
  - intros E. injection E as Ep El. apply list_ext in El as [Ll Le]. specialize (LX Ll). split; [exact LX|]. split.
    + apply be_inj; [apply bytes_ok_firstn; auto|apply bytes_ok_firstn; auto|rewrite !firstn_length; lia|auto].
    + intros i j LP. assert (I : (i < length xs)%nat) by (rewrite L1; apply LP).
      assert (I2 : (i < length ys)%nat) by (rewrite <- Ll; auto).
      apply nth_error_Some in I. destruct (nth_error xs i) as [r|] eqn:Er; [|congruence].
      apply nth_error_Some in I2. destruct (nth_error ys i) as [s|] eqn:Es; [|congruence].
      apply (R LX i j r s LP Er Es). exact (Le i r s Er Es).
  - intros (LL & EP & HH). f_equal; [change (be (firstn 2 d) = be (firstn 2 e)); now rewrite EP|].
    apply list_ext. split; [rewrite L1, L2, !skipn_length; now rewrite LL|].
    intros i r s Er Es. destruct (N1 i r Er) as [I _]. destruct (last_at_place_10 _ i I) as [j LP].
    apply (R LL i j r s LP Er Es). now apply HH.
Qed.

(** ** Events and faults *)

(** Two texts are read alike: with the same code page and the same characters. *)
Definition same_text (cm : Z -> Z -> Z) (a b : bytes) : Prop :=
  exists s t, unmarshal_string_value cm a = Ok s /\ unmarshal_string_value cm b = Ok t /\
    sv_encoding s = sv_encoding t /\ sv_value s = sv_value t.

(** Two records [r] and [r'], of which [f] and [g] are shown in the end. *)
Definition same_event (cm : Z -> Z -> Z) (r r' : bytes) (f g : nat -> Z) : Prop :=
  if be (sub r 1 4) =? 0 then be (sub r' 1 4) = 0 /\ forall p, (p < 24)%nat -> f p = g p
  else firstn 9 r = firstn 9 r' /\ nations_alike (nth 9 r 0) (nth 9 r' 0) /\ same_text cm (sub r 10 14) (sub r' 10 14) /\
       forall p, (10 <= p < 24)%nat -> f p = g p.

Definition same_events (cm : Z -> Z -> Z) (d e : bytes) : Prop :=
  (length d / 24 = length e / 24)%nat /\
  forall i j, last_at_place 24 170 d i j ->
    same_event cm (sub d (i * 24) 24) (sub e (i * 24) 24) (shown_byte d i j) (shown_byte e i j).

Lemma map_seq_eq (f g : nat -> Z) a n : map f (seq a n) = map g (seq a n) <-> forall p, (a <= p < a + n)%nat -> f p = g p.
Proof.
  split.
  - intros E p P. assert (I : In p (seq a n)) by (apply in_seq; lia). revert I E. generalize (seq a n). clear.
    induction l as [|q l IH]; intros I E; [destruct I|]. cbn [map] in E. injection E as E1 E2. destruct I as [->|I]; auto.
  - intros H. apply map_ext_in. intros p I. apply in_seq in I. apply H. lia.
Qed.

Lemma sub_map_seq (f : nat -> Z) n i m : (i + m <= n)%nat -> sub (map f (seq 0 n)) i m = map f (seq i m).
Proof.
  intros L. unfold sub. rewrite skipn_map, firstn_map. f_equal.
  rewrite <- (firstn_skipn m (seq i m)). 
  replace n with (i + (m + (n - i - m)))%nat by lia. rewrite !seq_app. cbn [Nat.add].
  rewrite skipn_app, seq_length, Nat.sub_diag. rewrite (skipn_all2 (seq 0 i)) by (rewrite seq_length; lia). cbn [List.app skipn].
  rewrite firstn_app, seq_length, Nat.sub_diag. cbn [firstn]. rewrite app_nil_r. rewrite (skipn_all2 (seq i m)) by (rewrite seq_length; lia).
  now rewrite app_nil_r.
Qed.

Lemma event_alike cm r r' f g x y : bytes_ok r -> bytes_ok r' -> length r = 24%nat -> length r' = 24%nat ->
  unmarshal_event cm (r, map f (seq 0 24)) = Ok x -> unmarshal_event cm (r', map g (seq 0 24)) = Ok y ->
  (x = y <-> same_event cm r r' f g).
Proof.
  intros B1 B2 L1 L2 E1 E2. unfold unmarshal_event, same_event in *. cbn [fst snd] in *.
  rewrite !sub_map_seq in * by lia.
  remember (map f (seq 0 24)) as F0 eqn:HF. remember (map g (seq 0 24)) as G0 eqn:HG.
  remember (map f (seq 10 14)) as F1 eqn:HF1. remember (map g (seq 10 14)) as G1 eqn:HG1.
  assert (X0 : F0 = G0 <-> forall p, (p < 24)%nat -> f p = g p).
  { subst F0 G0. rewrite map_seq_eq. split; intros H p P; apply H; lia. }
  assert (X1 : F1 = G1 <-> forall p, (10 <= p < 24)%nat -> f p = g p).
  { subst F1 G1. rewrite map_seq_eq. reflexivity. }
  clear HF HG HF1 HG1.
  destruct (Z.eqb_spec (be (sub r 1 4)) 0) as [U1|U1].
  - apply Ok_inj in E1. subst x. destruct (Z.eqb_spec (be (sub r' 1 4)) 0) as [U2|U2].
    + apply Ok_inj in E2. subst y. rewrite <- X0. split; [intros E; split; [exact U2|now injection E]|now intros [_ ->]].
    + opened E2. apply Ok_inj in E2. subst y. split; [discriminate|]. intros [Q _]. contradiction.
  - opened E1. apply Ok_inj in E1. subst x. destruct (Z.eqb_spec (be (sub r' 1 4)) 0) as [U2|U2].
    + apply Ok_inj in E2. subst y. split; [discriminate|]. intros [Q _].
      exfalso. apply U1. rewrite <- U2. f_equal. apply (within0 r r' 9 1 4 Q). lia.
    + opened E2. apply Ok_inj in E2. subst y. rewrite <- X1. clear X0 X1.
      match goal with A : unmarshal_vreg cm (sub r _ _) = Ok _, B : unmarshal_vreg cm (sub r' _ _) = Ok _ |- _ =>
        apply vreg_read in A as (_ & s & A & ->); apply vreg_read in B as (_ & t & B & ->); rename A into V1, B into V2 end.
      rewrite !sub_sub in * by lia. rewrite !nth_sub in * by lia. cbn [Nat.add] in *. rewrite <- nation_read_alike.
      unfold alias_vreg. cbn [vr_nation vr_number option_map].
      assert (LS : sv_length s = sv_length t).
      { unfold unmarshal_string_value in V1, V2. rewrite !sub_length in * by lia. change (14 <? 2)%nat with false in *.
        apply Ok_inj in V1, V2. subst s t. cbn [sv_length]. rewrite !skipn_length, !sub_length by lia. reflexivity. }
      split.
      * intros E. symmetry in E. parted E. split; [|split; [auto|split; [exists s, t; auto|auto]]].
        change (sub r 0 9 = sub r' 0 9). apply (grow r r' 5 4); [|eapply time_inj; eauto using bytes_ok_sub].
        apply (grow r r' 1 4); [|eapply time_inj; eauto using bytes_ok_sub].
        apply one; [lia|lia|]. eapply enum_inj; [exact event_fault_keys|eassumption|eassumption].
      * intros (Q1 & Q2 & (s' & t' & T1 & T2 & T3 & T4) & Q4). change (sub r 0 9 = sub r' 0 9) in Q1.
        rewrite V1 in T1. rewrite V2 in T2. apply Ok_inj in T1, T2. subst s' t'.
        pose proof (nth_within r r' 0 9 0 Q1 ltac:(lia)) as P0. pose proof (within0 r r' 9 1 4 Q1 ltac:(lia)) as P1.
        pose proof (within0 r r' 9 5 4 Q1 ltac:(lia)) as P2. cbn [Nat.add] in *. rewrite Q2, T3, T4, LS, Q4.
        carry P0. carry P1. carry P2. clear - H0 H1 H2 H5 H6 H7. congruence.
Qed.

Lemma events_same cm d e x y : bytes_ok d -> bytes_ok e -> unmarshal_events cm d = Ok x -> unmarshal_events cm e = Ok y ->
  (x = y <-> same_events cm d e).
Proof.
  intros B1 B2 E1 E2. unfold unmarshal_events in *. apply bind_ok in E1 as (l1 & S1 & M1). apply bind_ok in E2 as (l2 & S2 & M2).
  destruct (scanned_nth _ 24 _ _ _ ltac:(lia) fits_24 S1 M1) as [L1 N1]. destruct (scanned_nth _ 24 _ _ _ ltac:(lia) fits_24 S2 M2) as [L2 N2].
  assert (R : (length d / 24 = length e / 24)%nat -> forall i j r s, last_at_place 24 170 d i j -> nth_error x i = Some r -> nth_error y i = Some s ->
    (r = s <-> same_event cm (sub d (i * 24) 24) (sub e (i * 24) 24) (shown_byte d i j) (shown_byte e i j))).
  { intros LL i j r s LP Er Es. destruct (N1 i r Er) as [I1 U1]. destruct (N2 i s Es) as [I2 U2].
    assert (LP' : last_at_place 24 170 e i j) by (unfold last_at_place in *; now rewrite <- LL).
    rewrite (shown_bytes d i j LP) in U1. rewrite (shown_bytes e i j LP') in U2.
    assert (LN : forall l : bytes, (i < length l / 24)%nat -> length (sub l (i * 24) 24) = 24%nat).
    { intros l I. apply sub_length. pose proof (Nat.mul_div_le (length l) 24 ltac:(lia)). lia. }
    exact (event_alike cm _ _ _ _ r s (bytes_ok_sub _ _ _ B1) (bytes_ok_sub _ _ _ B2) (LN d I1) (LN e I2) U1 U2). }
  unfold same_events. rewrite list_ext, L1, L2. split.
  - intros [LL H]. split; [exact LL|]. intros i j LP.
    assert (I : (i < length x)%nat) by (rewrite L1; apply LP). assert (I2 : (i < length y)%nat) by (rewrite L2, <- LL, <- L1; exact I).
    apply nth_error_Some in I. destruct (nth_error x i) as [r|] eqn:Er; [|congruence].
    apply nth_error_Some in I2. destruct (nth_error y i) as [s|] eqn:Es; [|congruence].
    apply (R LL i j r s LP Er Es). exact (H i r s Er Es).
  - intros [LL H]. split; [exact LL|]. intros i r s Er Es. destruct (N1 i r Er) as [I _]. destruct (last_at_place_24 _ i I) as [j LP].
    apply (R LL i j r s LP Er Es). now apply H.
Qed.
