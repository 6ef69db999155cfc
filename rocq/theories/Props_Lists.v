(** C73: the records of the list files are decoded from their own bytes, in order. *)

From Verif Require Import Base Enums DDScalar Chunks Utf8 DDString DDRecord CardRecords Scanner.
From Verif Require Import P_Basic P_Scanner Field P_Records Props_Layout Props_Build.
Local Open Scope list_scope.

(** Records of [n] bytes each, decoded one by one by [un]. *)
Definition one_by_one {X} (n : nat) (un : bytes -> X -> Prop) (bs : list bytes) (rs : list X) : Prop :=
  Forall (fun b => length b = n) bs -> Forall2 un bs rs.

Lemma list_map {X} (un : bytes -> res X) (dflt : bytes -> X) n bs :
  (forall b, length b = n -> exists r, un b = Ok r) -> Forall (fun b => length b = n) bs ->
  Forall2 (fun b r => un b = Ok r) bs (map (fun c => match un c with Ok p => p | _ => dflt c end) bs).
Proof.
  intros T. induction 1 as [|b bs L H IH]; cbn [map]; constructor; auto.
  destruct (T b L) as (r & ->). reflexivity.
Qed.

Lemma list_collect {X} (un : bytes -> res X) n bs :
  (forall b, length b = n -> exists r, un b = Ok r) -> Forall (fun b => length b = n) bs ->
  Forall2 (fun b r => un b = Ok r) bs (collect_ok un bs).
Proof.
  intros T. induction 1 as [|b bs L H IH]; cbn [collect_ok]; [constructor|].
  destruct (T b L) as (r & E). rewrite E. now constructor.
Qed.

Lemma time_total b : length b = 4%nat -> exists t, unmarshal_time b = Ok t.
Proof.
  intros L. unfold unmarshal_time. rewrite L. cbn [Nat.eqb guard bind]. destruct (_ =? 0); eauto.
Qed.

Lemma place_total b : length b = 10%nat -> exists r, unmarshal_place b = Ok r.
Proof.
  intros L. unfold unmarshal_place. rewrite L. cbn [Nat.eqb guard bind].
  destruct (time_total (sub b 0 4)) as (t & ->); [rewrite sub_length; lia|]. cbn [bind]. eauto.
Qed.

Lemma place_g2_total b : length b = 21%nat -> exists r, unmarshal_place_g2 b = Ok r.
Proof.
  intros L. unfold unmarshal_place_g2. rewrite L. cbn [Nat.eqb guard bind].
  destruct (time_total (sub b 0 4)) as (t & ->); [rewrite sub_length; lia|]. cbn [bind].
  unfold unmarshal_gnss_place. rewrite sub_length by lia. cbn [Nat.eqb guard bind].
  destruct (time_total (sub (sub b 10 11) 0 4)) as (t' & ->); [rewrite sub_length; [reflexivity|rewrite sub_length; lia]|].
  cbn [bind]. unfold unmarshal_geo. rewrite sub_length by (rewrite sub_length; lia).
  cbn [Nat.eqb guard bind]. eauto.
Qed.

Lemma condition_total b : length b = 5%nat -> exists r, unmarshal_spec_cond b = Ok r.
Proof.
  intros L. unfold unmarshal_spec_cond. rewrite L. cbn [Nat.eqb guard bind].
  destruct (time_total (sub b 0 4)) as (t & ->); [rewrite sub_length; lia|]. cbn [bind].
  destruct (unmarshal_enum _ _); eauto.
Qed.

Lemma behind {p} (rest : bytes) n : length p = n -> skipn n (p ++ rest) = rest.
Proof. intros L. now apply Field.skipn_app_exact. Qed.

Lemma scanned {X} n (un : bytes * bytes -> res X) bs rest l rs :
  (0 < n <= max_token_size)%nat -> Forall (fun b => length b = n) bs -> (length rest < n)%nat ->
  scan_fixed n (concat bs ++ rest) = Ok l -> map_res un l = Ok rs ->
  Forall2 (fun b r => exists later, un (b, later) = Ok r) bs rs.
Proof.
  intros N L R E M. destruct (scan_fixed_chunks n (concat bs ++ rest) N) as (l' & E' & C).
  rewrite E in E'. apply Ok_inj in E' as <-. rewrite (chunks_rest n bs rest (proj1 N) L R) in C. subst bs.
  apply map_res_ok in M. clear - M. induction M as [|[b w] r l rs H M IH]; cbn [map fst]; constructor; eauto.
Qed.

(** Of a record that ends early at the end of the file nothing is read; the lists of
    positions and of vehicle units must not have one.  Two readers show a record as
    long as it is parsed and its texts again later. *)
Theorem C73_list_records :
  (forall p bs rest x, length p = 1%nat -> (length rest < 10)%nat ->
     unmarshal_places (p ++ concat bs ++ rest) = Ok x ->
     one_by_one 10 (fun b r => unmarshal_place b = Ok r) bs (ps_records x)) /\
  (forall p bs rest x, length p = 2%nat -> (length rest < 21)%nat ->
     unmarshal_places_g2 (p ++ concat bs ++ rest) = Ok x ->
     one_by_one 21 (fun b r => unmarshal_place_g2 b = Ok r) bs (ps2_records x)) /\
  (forall cm p bs rest x, length p = 2%nat -> (length rest < 31)%nat ->
     unmarshal_vehicles cm (p ++ concat bs ++ rest) = Ok x ->
     one_by_one 31 (fun b r => unmarshal_card_vehicle cm b = Ok r) bs (vs_records x)) /\
  (forall cm p bs rest x, length p = 2%nat -> (length rest < 48)%nat ->
     unmarshal_vehicles_g2 cm (p ++ concat bs ++ rest) = Ok x ->
     one_by_one 48 (fun b r => unmarshal_card_vehicle_g2 cm b = Ok r) bs (vs2_records x)) /\
  (forall bs rest x, (length rest < 5)%nat -> unmarshal_conditions (concat bs ++ rest) = Ok x ->
     one_by_one 5 (fun b r => unmarshal_spec_cond b = Ok r) bs (co_records x)) /\
  (forall p bs rest x, length p = 2%nat -> (length rest < 5)%nat ->
     unmarshal_conditions_g2 (p ++ concat bs ++ rest) = Ok x ->
     one_by_one 5 (fun b r => unmarshal_spec_cond b = Ok r) bs (co2_records x)) /\
  (forall p bs x, length p = 2%nat -> unmarshal_gnss_places (p ++ concat bs) = Ok x ->
     one_by_one 18 (fun b r => unmarshal_gnss_record b = Ok r) bs (gps_records x)) /\
  (forall p bs x, length p = 2%nat -> unmarshal_units_used (p ++ concat bs) = Ok x ->
     one_by_one 10 (fun b r => exists later, unmarshal_unit_record (b, later) = Ok r) bs (uu_records x)) /\
  (forall cm bs rest x, (length rest < 24)%nat -> unmarshal_events cm (concat bs ++ rest) = Ok x ->
     one_by_one 24 (fun b r => exists later, unmarshal_event cm (b, later) = Ok r) bs x).
Proof.
  unfold one_by_one. split; [|split; [|split; [|split; [|split; [|split; [|split; [|split]]]]]]].
  - intros p bs rest x Lp R E L. unfold unmarshal_places in E. apply bind_ok in E as (u & _ & E).
    apply Ok_inj in E as <-. cbn [ps_records]. rewrite (behind (concat bs ++ rest) 1 Lp), chunks_rest by (auto; lia).
    now apply (list_map unmarshal_place _ 10 bs place_total).
  - intros p bs rest x Lp R E L. unfold unmarshal_places_g2 in E. apply bind_ok in E as (u & _ & E).
    apply Ok_inj in E as <-. cbn [ps2_records]. rewrite (behind (concat bs ++ rest) 2 Lp), chunks_rest by (auto; lia).
    now apply (list_map unmarshal_place_g2 _ 21 bs place_g2_total).
  - intros cm p bs rest x Lp R E L. unfold unmarshal_vehicles in E. apply bind_ok in E as (u & _ & E).
    rewrite (behind (concat bs ++ rest) 2 Lp), chunks_rest in E by (auto; lia).
    apply bind_ok in E as (rs & M & E). apply Ok_inj in E as <-. cbn [vs_records]. now apply map_res_ok.
  - intros cm p bs rest x Lp R E L. unfold unmarshal_vehicles_g2 in E. apply bind_ok in E as (u & _ & E).
    rewrite (behind (concat bs ++ rest) 2 Lp), chunks_rest in E by (auto; lia).
    apply bind_ok in E as (rs & M & E). apply Ok_inj in E as <-. cbn [vs2_records]. now apply map_res_ok.
  - intros bs rest x R E L. unfold unmarshal_conditions in E. destruct (_ =? 0)%nat eqn:Q.
    + apply Ok_inj in E as <-. apply Nat.eqb_eq in Q. rewrite app_length in Q. cbn [co_records].
      destruct L as [|b bs Lb L]; [constructor|]. exfalso. cbn [concat] in Q. rewrite app_length in Q. lia.
    + apply Ok_inj in E as <-. cbn [co_records]. rewrite chunks_rest by (auto; lia).
      now apply (list_collect _ 5 bs condition_total).
  - intros p bs rest x Lp R E L. unfold unmarshal_conditions_g2 in E. apply bind_ok in E as (u & _ & E).
    apply Ok_inj in E as <-. cbn [co2_records]. rewrite (behind (concat bs ++ rest) 2 Lp), chunks_rest by (auto; lia).
    now apply (list_collect _ 5 bs condition_total).
  - intros p bs x Lp E L. unfold unmarshal_gnss_places in E. apply bind_ok in E as (u & _ & E).
    apply bind_ok in E as (u' & _ & E). rewrite (behind (concat bs) 2 Lp) in E.
    apply bind_ok in E as (l & El & E). apply bind_ok in E as (rs & M & E). apply Ok_inj in E as <-. cbn [gps_records].
    rewrite <- (app_nil_r (concat bs)) in El.
    assert (H : Forall2 (fun b r => exists later : bytes, unmarshal_gnss_record (fst (b, later)) = Ok r) bs rs).
    { apply (scanned 18 (fun p => unmarshal_gnss_record (fst p)) bs [] l rs); auto; [|cbn [length]; lia].
      pose proof start_le_max. pose proof start_eq. lia. }
    clear - H. induction H as [|b r bs rs (w & H) _ IH]; constructor; auto.
  - intros p bs x Lp E L. unfold unmarshal_units_used in E. apply bind_ok in E as (u & _ & E).
    apply bind_ok in E as (u' & _ & E). rewrite (behind (concat bs) 2 Lp) in E.
    apply bind_ok in E as (l & El & E). apply bind_ok in E as (rs & M & E). apply Ok_inj in E as <-. cbn [uu_records].
    rewrite <- (app_nil_r (concat bs)) in El. apply (scanned 10 unmarshal_unit_record bs [] l rs); auto; [|cbn [length]; lia].
    pose proof start_le_max. pose proof start_eq. lia.
  - intros cm bs rest x R E L. unfold unmarshal_events in E. apply bind_ok in E as (l & El & M).
    apply (scanned 24 (unmarshal_event cm) bs rest l x); auto. pose proof start_le_max. pose proof start_eq. lia.
Qed.
Print Assumptions C73_list_records.

(** Two place records and four bytes of a third. *)
Definition two_places : list bytes := [[95;0;0;0; 1; 13; 7; 0;1;0]; [95;0;1;0; 2; 18; 0; 0;1;9]].

Example C73_list_records_example : exists x,
  unmarshal_places_g2 ([0; 1] ++ concat [[95;0;0;0; 1; 13; 7; 0;1;0] ++ repeat 0 11] ++ [1; 2; 3]) = Ok x /\
  length (ps2_records x) = 1%nat /\
  exists y, unmarshal_places ([1] ++ concat two_places ++ [1; 2; 3; 4]) = Ok y /\ length (ps_records y) = 2%nat /\
    map pl_odometer (ps_records y) = [256; 265].
Proof.
  eexists. split; [vm_compute; reflexivity|]. split; [reflexivity|].
  eexists. split; [vm_compute; reflexivity|]. split; reflexivity.
Qed.
