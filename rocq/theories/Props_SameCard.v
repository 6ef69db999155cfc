(** C117: which dumps of driver cards give the same message. *)

From Verif Require Import Base Enums Chunks Scanner DDScalar Utf8 DDString DDRecord P_String RawTypes Field P_Scanner P_ScanFinal.
From Verif Require Import CardBasic CardRecords P_Records Props_ScanExact CardIdent CardActivity Cert DriverCard P_Driver.
From Verif Require Import Api P_Dump Props_Dump Props_Driver P_SameCard.

(** The parts of a file that the message keeps. *)
Definition same_content (cm : Z -> Z -> Z) (s : slot) (d e : bytes) : Prop :=
  match s with
  | S_icc => same_front 25 d e
  | S_ic => same_front 8 d e
  | S_download | S2_download | S2_app_v2 => same_front 4 d e
  | S_licence | S2_licence => same_but_nation 53 36 d e
  | S_identification | S2_identification => same_but_nation 143 0 d e
  | S_usage | S2_usage => same_but_nation 19 4 d e
  | S_control | S2_control => same_control d e
  | S_events | S2_events | S_faults | S2_faults => same_events cm d e
  | S2_units => same_units d e
  | _ => d = e
  end.

Lemma raw_same {X} (P : bytes -> res X) (raw : X -> bytes) d e x y : (forall d x, P d = Ok x -> raw x = d) ->
  P d = Ok x -> P e = Ok y -> (x = y <-> d = e).
Proof.
  intros R E1 E2. split.
  - intros <-. now rewrite <- (R d x E1), <- (R e x E2).
  - intros <-. rewrite E1 in E2. now apply Ok_inj in E2.
Qed.

Lemma ecc_raw_kept d x : unmarshal_ecc d = Ok x -> ecc_raw x = d.
Proof.
  intros E. unfold unmarshal_ecc in E.
  repeat (match type of E with
          | bind _ _ = Ok _ => apply bind_ok in E as (? & _ & E); cbv beta in E
          | (let '(_, _) := ?p in _) = Ok _ => destruct p
          end). apply Ok_inj in E. now subst x.
Qed.

Lemma activity_same d e x y : bytes_ok d -> bytes_ok e -> unmarshal_activity d = Ok x -> unmarshal_activity e = Ok y -> (x = y <-> d = e).
Proof.
  intros B1 B2 E1 E2. split; [|intros <-; congruence]. intros <-. unfold unmarshal_activity in *.
  apply bind_ok in E1 as (? & G1 & E1). apply bind_ok in E2 as (? & G2 & E2). cbv zeta in E1, E2.
  apply guard_ok, negb_true_iff, Nat.ltb_ge in G1, G2.
  destruct (_ =? 0)%nat in E1; [discriminate|]. destruct (_ =? 0)%nat in E2; [discriminate|].
  apply bind_ok in E1 as (ds & _ & E1). apply bind_ok in E2 as (ds' & _ & E2). apply Ok_inj in E1, E2. subst x.
  injection E2 as Q1 Q2 Q3 _. rewrite <- (firstn_skipn 4 d), <- (firstn_skipn 4 e). f_equal; [|auto].
  change (sub d 0 4 = sub e 0 4). apply (grow d e 2 2); apply be_piece; auto; lia.
Qed.

Lemma content_same cm s d e x y : bytes_ok d -> bytes_ok e -> unmarshal_content cm s d = Ok x -> unmarshal_content cm s e = Ok y ->
  (x = y <-> same_content cm s d e).
Proof.
  intros B1 B2.
  assert (RAW : forall {X} (P : bytes -> res X) (raw : X -> bytes), (forall d x, P d = Ok x -> raw x = d) -> forall x y,
            P d = Ok x -> P e = Ok y -> (x = y <-> d = e)).
  { intros X P raw R x0 y0 E1 E2. now apply (raw_same P raw). }
  destruct s; cbn [unmarshal_content same_content content] in *;
    first [ intros E1 E2; first [ now apply icc_same | now apply ic_same | now apply app_id_same | now apply app_id_g2_same
          | now apply (licence_same cm) | now apply (identification_same cm) | now apply events_same | now apply activity_same
          | now apply (usage_same cm) | now apply (control_same cm) | now apply download_same | now apply gnss_same
          | now apply units_same | now apply app_v2_same ]
          | idtac ].
  all: first
    [ apply (RAW _ _ vs_raw); intros f z E; unfold unmarshal_vehicles in E; opened E; apply Ok_inj in E; now subst z
    | apply (RAW _ _ vs2_raw); intros f z E; unfold unmarshal_vehicles_g2 in E; opened E; apply Ok_inj in E; now subst z
    | apply (RAW _ _ ps_raw); intros f z E; unfold unmarshal_places in E; opened E; apply Ok_inj in E; now subst z
    | apply (RAW _ _ ps2_raw); intros f z E; unfold unmarshal_places_g2 in E; opened E; apply Ok_inj in E; now subst z
    | apply (RAW _ _ co_raw); intros f z E; unfold unmarshal_conditions in E; destruct (Nat.eqb_spec (length f) 0) as [L|L];
        apply Ok_inj in E; subst z; [now apply length_zero_iff_nil in L; subst f|reflexivity]
    | apply (RAW _ _ co2_raw); intros f z E; unfold unmarshal_conditions_g2 in E; opened E; apply Ok_inj in E; now subst z
    | apply (RAW _ _ rsa_raw); intros f z E; unfold unmarshal_rsa in E; opened E; apply Ok_inj in E; now subst z
    | apply (RAW _ _ ecc_raw); intros f z E; exact (ecc_raw_kept f z E) ].
Qed.

(** The last record of a dump that fills the field [s] of the message. *)
Definition last_for (s : slot) (us : list dumped) (u : dumped) : Prop :=
  exists a b, us = a ++ u :: b /\ field_of (u_fid u) (u_gen2 u) = Some s /\
    forall v, In v b -> field_of (u_fid v) (u_gen2 v) <> Some s.

(** Two dumps have the same records, as far as the message shows: for every field both
    or neither have one, and the last ones agree. *)
Definition same_records (cm : Z -> Z -> Z) (us vs : list dumped) : Prop :=
  forall s, ((exists u, last_for s us u) <-> (exists v, last_for s vs v)) /\
    forall u v, last_for s us u -> last_for s vs v -> same_content cm s (u_val u) (u_val v) /\ u_signature u = u_signature v.

Lemma last_for_dec s us : none_for s us \/ exists u, last_for s us u.
Proof.
  destruct (none_for_dec s us) as [N|(a & u & b & E & U & N)]; [now left|]. right. exists u, a, b. split; auto. split; auto.
  unfold none_for in N. rewrite Forall_forall in N. exact N.
Qed.

Lemma last_for_some s us u : last_for s us u -> ~ none_for s us.
Proof.
  intros (a & b & -> & U & _) N. unfold none_for in N. rewrite Forall_forall in N. apply (N u); [|exact U]. apply in_app_iff. right. now left.
Qed.

Lemma last_for_in s us u : last_for s us u -> In u us /\ u_field u = Some s.
Proof. intros (a & b & -> & U & _). split; [|exact U]. apply in_app_iff. right. now left. Qed.

Theorem C117_same_card : forall cm us vs c c', Forall dumped_ok us -> Forall dumped_ok vs ->
  accepted cm us c -> accepted cm vs c' ->
  (same_card c c' <-> same_records cm us vs).
Proof.
  intros cm us vs c c' V1 V2 A1 A2. apply accepted_iff in A1 as (os & _ & _ & G1 & ->); auto.
  apply accepted_iff in A2 as (ps & _ & _ & G2 & ->); auto.
  assert (L : forall ws qs s u, Forall dumped_ok ws -> Forall2 (gives cm) ws qs -> last_for s ws u ->
    exists x, bytes_ok (u_val u) /\ unmarshal_content cm s (u_val u) = Ok x /\ slot_of_card (card_of qs) s = Some (x, u_signature u)).
  { intros ws qs s u V G LF. pose proof (last_for_in s ws u LF) as [I _]. destruct LF as (a & b & E & U & N).
    destruct (card_last cm ws qs s u a b G E U) as (x & X & _ & Y).
    { unfold none_for. rewrite Forall_forall. exact N. }
    exists x. split; [|auto]. rewrite Forall_forall in V. destruct (V u I) as (_ & _ & _ & B & _). exact B. }
  assert (K : forall s, slot_of_card (card_of os) s = slot_of_card (card_of ps) s <->
    (((exists u, last_for s us u) <-> (exists v, last_for s vs v)) /\
     forall u v, last_for s us u -> last_for s vs v -> same_content cm s (u_val u) (u_val v) /\ u_signature u = u_signature v)).
  { intros s. destruct (last_for_dec s us) as [N1|(u & L1)], (last_for_dec s vs) as [N2|(v & L2)].
    - rewrite (card_none cm us os s G1 N1), (card_none cm vs ps s G2 N2). split; [|reflexivity]. intros _. split.
      + split; intros (w & W); exfalso; revert W; intros W; apply last_for_some in W; contradiction.
      + intros w z W. apply last_for_some in W. contradiction.
    - rewrite (card_none cm us os s G1 N1). destruct (L vs ps s v V2 G2 L2) as (x & _ & _ & ->). split; [discriminate|].
      intros [[_ H] _]. destruct H as (w & W); [eauto|]. apply last_for_some in W. contradiction.
    - rewrite (card_none cm vs ps s G2 N2). destruct (L us os s u V1 G1 L1) as (x & _ & _ & ->). split; [discriminate|].
      intros [[H _] _]. destruct H as (w & W); [eauto|]. apply last_for_some in W. contradiction.
    - split.
      + intros E. split; [split; eauto|]. intros w z W1 W2.
        destruct (L us os s w V1 G1 W1) as (x & B1 & X1 & Y1). destruct (L vs ps s z V2 G2 W2) as (y & B2 & X2 & Y2).
        rewrite Y1, Y2 in E. injection E as E Es. split; [|exact Es]. apply (content_same cm s _ _ x y); auto.
      + intros [_ H]. destruct (H u v L1 L2) as [H1 H2].
        destruct (L us os s u V1 G1 L1) as (x & B1 & X1 & ->). destruct (L vs ps s v V2 G2 L2) as (y & B2 & X2 & ->).
        rewrite H2. apply (content_same cm s _ _ x y) in H1; auto. now rewrite H1. }
  unfold same_card, same_records. split.
  - intros [_ H] s. apply K. apply H.
  - intros H. split; [|intros s; apply K; apply H].
    intros a. apply eq_true_iff_eq. rewrite (card_has cm us os a G1), (card_has cm vs ps a G2).
    assert (W : forall ws zs, (forall s, (exists u, last_for s ws u) -> exists v, last_for s zs v) ->
      (a = Master \/ exists u s, In u ws /\ u_field u = Some s /\ slot_app s = a) -> a = Master \/ exists u s, In u zs /\ u_field u = Some s /\ slot_app s = a).
    { intros ws zs Q [->|(u & s & I & U & P)]; [now left|]. right.
      destruct (Q s) as (v & LV).
      - destruct (last_for_dec s ws) as [N|X]; [|exact X]. exfalso. unfold none_for in N. rewrite Forall_forall in N. exact (N u I U).
      - apply last_for_in in LV as [J X]. exists v, s. auto. }
    split; apply W; intros s; apply (proj1 (H s)).
Qed.
Print Assumptions C117_same_card.

(** Two dumps with the same message: an earlier chip record, bytes behind the chip
    record, and another unknown nation make no difference; another chip record does. *)
Definition licence_unit (nation : Z) : dumped := mkDumped 0x0521 0 (1 :: repeat 65 35 ++ nation :: repeat 66 16) None.
Definition first_dump : list dumped := [icc_unit; ic_unit; licence_unit 200].
Definition second_dump : list dumped :=
  [icc_unit; mkDumped 0x0005 2 [8; 7; 6; 5; 4; 3; 2; 1] None; mkDumped 0x0005 0 (u_val ic_unit ++ [9; 9]) None; licence_unit 201].

Example C117_example : Forall dumped_ok first_dump /\ Forall dumped_ok second_dump /\
  (exists c, accepted no_charmap first_dump c) /\ (exists c, accepted no_charmap second_dump c) /\
  same_records no_charmap first_dump second_dump /\
  ~ same_records no_charmap first_dump [icc_unit; mkDumped 0x0005 2 [8; 7; 6; 5; 4; 3; 2; 1] None; licence_unit 200].
Proof.
  destruct (driver_ok_accepted first_dump) as [V1 A1]; [vm_compute; reflexivity|].
  destruct (driver_ok_accepted second_dump) as [V2 A2]; [vm_compute; reflexivity|].
  split; auto. split; auto. split; auto. split; auto.
  assert (U : ~ nation_known 200 /\ ~ nation_known 201).
  { rewrite <- !nation_knownb_iff. split; vm_compute; discriminate. }
  assert (ONE : forall s u, last_for s first_dump u -> (s = S_icc /\ u = icc_unit) \/ (s = S_ic /\ u = ic_unit) \/ (s = S_licence /\ u = licence_unit 200)).
  { intros s u L. apply last_for_in in L as [I Q]. unfold u_field in Q.
    destruct I as [<-|[<-|[<-|[]]]]; vm_compute in Q; injection Q as <-; auto. }
  assert (TWO : forall s u, last_for s second_dump u -> (s = S_icc /\ u = icc_unit) \/
     (s = S_ic /\ u = mkDumped 0x0005 0 (u_val ic_unit ++ [9; 9]) None) \/ (s = S_licence /\ u = licence_unit 201)).
  { intros s u (a & b & E & Q & N).
    destruct a as [|a0 a]; injection E as E0 E. { subst u. vm_compute in Q. injection Q as <-. auto. }
    destruct a as [|a1 a]; injection E as E1 E.
    { exfalso. subst u b. vm_compute in Q. injection Q as <-. refine (N _ (or_introl eq_refl) _). vm_compute. reflexivity. }
    destruct a as [|a2 a]; injection E as E2 E. { subst u. vm_compute in Q. injection Q as <-. auto. }
    destruct a as [|a3 a]; injection E as E3 E. { subst u. vm_compute in Q. injection Q as <-. auto. }
    destruct a; discriminate. }
  assert (F1 : last_for S_icc first_dump icc_unit).
  { exists [], [ic_unit; licence_unit 200]. split; [reflexivity|]. split; [vm_compute; reflexivity|].
    intros v [<-|[<-|[]]]; vm_compute; discriminate. }
  assert (F2 : last_for S_ic first_dump ic_unit).
  { exists [icc_unit], [licence_unit 200]. split; [reflexivity|]. split; [vm_compute; reflexivity|].
    intros v [<-|[]]; vm_compute; discriminate. }
  assert (F3 : last_for S_licence first_dump (licence_unit 200)).
  { exists [icc_unit; ic_unit], []. split; [reflexivity|]. split; [vm_compute; reflexivity|]. intros v []. }
  assert (G1 : last_for S_icc second_dump icc_unit).
  { exists [], (tl second_dump). split; [reflexivity|]. split; [vm_compute; reflexivity|].
    intros v [<-|[<-|[<-|[]]]]; vm_compute; discriminate. }
  assert (G2 : last_for S_ic second_dump (mkDumped 0x0005 0 (u_val ic_unit ++ [9; 9]) None)).
  { exists (firstn 2 second_dump), (skipn 3 second_dump). split; [reflexivity|]. split; [vm_compute; reflexivity|].
    intros v [<-|[]]; vm_compute; discriminate. }
  assert (G3 : last_for S_licence second_dump (licence_unit 201)).
  { exists (firstn 3 second_dump), []. split; [reflexivity|]. split; [vm_compute; reflexivity|]. intros v []. }
  split.
  - intros s. split.
    + split; intros (u & L); [apply ONE in L|apply TWO in L]; destruct L as [[-> _]|[[-> _]|[-> _]]]; eauto.
    + intros u v L1 L2. apply ONE in L1. apply TWO in L2.
      destruct L1 as [[-> ->]|[[-> ->]|[-> ->]]]; destruct L2 as [[Q ->]|[[Q ->]|[Q ->]]]; try discriminate Q.
      * split; reflexivity.
      * split; reflexivity.
      * split; [|reflexivity]. cbn [same_content]. unfold same_but_nation. split; [reflexivity|]. split; [right; exact U|reflexivity].
  - intros H. destruct (proj2 (H S_ic) ic_unit (mkDumped 0x0005 2 [8; 7; 6; 5; 4; 3; 2; 1] None) F2) as [Q _].
    + exists [icc_unit], [licence_unit 200]. split; [reflexivity|]. split; [vm_compute; reflexivity|].
      intros v [<-|[]]; vm_compute; discriminate.
    + vm_compute in Q. discriminate Q.
Qed.
