(** C138: downloads that end early, between two records. *)

From Verif Require Import Base Enums Chunks DDScalar DDString DDRecord P_String RawTypes RawCard P_Records P_RawCard Field P_Scanner Infer.
From Verif Require Import Cert DriverCard P_Driver Vu Verify Api P_Vu P_Dump Props_RawCard Props_Dump P_Write Props_Driver Props_Vu Props_Download.

(** * Cards *)

(** A data record without the signature record behind it. *)
Definition bare (u : dumped) : dumped := mkDumped (u_fid u) (u_app u) (u_val u) None.

Lemma split_tlvs us : forall ts qs, flat_map u_tlvs us = ts ++ qs ->
  (exists us1 us2, us = us1 ++ us2 /\ ts = flat_map u_tlvs us1 /\ qs = flat_map u_tlvs us2) \/
  (exists us1 u a sg us2, us = us1 ++ u :: us2 /\ u_sig u = Some (a, sg) /\ ts = flat_map u_tlvs (us1 ++ [bare u]) /\
     qs = mkTlv (u_fid u) a sg :: flat_map u_tlvs us2).
Proof.
  induction us as [|u us IH]; intros ts qs E.
  - cbn in E. symmetry in E. apply app_eq_nil in E as [-> ->]. left. exists [], []. auto.
  - cbn [flat_map] in E. unfold u_tlvs at 1 in E. cbn [List.app] in E. destruct ts as [|t ts].
    + left. exists [], (u :: us). split; [reflexivity|]. split; [reflexivity|]. cbn [List.app] in E. rewrite <- E. reflexivity.
    + cbn [List.app] in E. injection E as <- E. destruct (u_sig u) as [[a sg]|] eqn:Q.
      * cbn [List.app] in E. destruct ts as [|t ts].
        -- right. exists [], u, a, sg, us. split; [reflexivity|]. split; [exact Q|]. split; [reflexivity|]. cbn [List.app] in E. now rewrite <- E.
        -- cbn [List.app] in E. injection E as <- E.
           destruct (IH ts qs E) as [(us1 & us2 & -> & -> & ->)|(us1 & v & b & sg' & us2 & -> & Qv & -> & ->)].
           ++ left. exists (u :: us1), us2. split; [reflexivity|]. split; [|reflexivity]. cbn [flat_map]. unfold u_tlvs at 2. rewrite Q. reflexivity.
           ++ right. exists (u :: us1), v, b, sg', us2. split; [reflexivity|]. split; [exact Qv|]. split; [|reflexivity].
              cbn [List.app flat_map]. unfold u_tlvs at 2. rewrite Q. reflexivity.
      * cbn [List.app] in E.
        destruct (IH ts qs E) as [(us1 & us2 & -> & -> & ->)|(us1 & v & b & sg' & us2 & -> & Qv & -> & ->)].
        -- left. exists (u :: us1), us2. split; [reflexivity|]. split; [|reflexivity]. cbn [flat_map]. unfold u_tlvs at 2. rewrite Q. reflexivity.
        -- right. exists (u :: us1), v, b, sg', us2. split; [reflexivity|]. split; [exact Qv|]. split; [|reflexivity].
           cbn [List.app flat_map]. unfold u_tlvs at 2. rewrite Q. reflexivity.
Qed.

Lemma data_in u us : In u us -> In (mkTlv (u_fid u) (u_app u) (u_val u)) (flat_map u_tlvs us).
Proof. intros I. apply in_flat_map. exists u. split; [exact I|]. now left. Qed.

(** A driver card dump that ends early is read, and files of which no record is
    missing are read as from the whole dump. *)
Theorem C138_cards_partial : forall cm ts qs c, Forall (fun t => tlv_ok t /\ t_len t <= 65530) (ts ++ qs) -> ts <> [] ->
  unmarshal_file cm (concat (map enc (ts ++ qs))) = Ok (mkFile FILE_DRIVER_CARD None (Some c) None) ->
  exists c', unmarshal_file cm (concat (map enc ts)) = Ok (mkFile FILE_DRIVER_CARD None (Some c') None) /\
    forall s, (forall t g, In t qs -> field_of (t_fid t) g <> Some s) -> slot_of_card c' s = slot_of_card c s.
Proof.
  intros cm ts qs c W N R.
  assert (B : bytes_ok (concat (map enc (ts ++ qs)))).
  { clear R. induction W as [|t l [T _] W IH]; cbn [map concat]; [constructor|]. apply bytes_ok_app. split; [now apply enc_ok|exact IH]. }
  destruct (accepted_bytes cm _ c B R) as (us & V & D & A).
  assert (E : flat_map u_tlvs us = ts ++ qs).
  { symmetry. apply C03_card_framing_injective; [exact W|now apply dump_tlvs|exact D]. }
  apply accepted_iff in A as (os & ST & ID & G & ->); [|exact V].
  assert (K : forall us1 os1, ts = flat_map u_tlvs us1 -> Forall dumped_ok us1 -> Forall (fun u => In (u_fid u) driver_fids) us1 ->
    Forall2 (gives cm) us1 os1 -> starts_with_icc us1 ->
    unmarshal_file cm (concat (map enc ts)) = Ok (mkFile FILE_DRIVER_CARD None (Some (card_of os1)) None)).
  { intros us1 os1 -> V1 I1 G1 S1. apply (proj2 (accepted_iff cm us1 (card_of os1) V1)). eauto. }
  destruct (split_tlvs us ts qs E) as [(us1 & us2 & -> & T1 & T2)|(us1 & u & a & sg & us2 & -> & Q & T1 & T2)].
  - apply Forall_app in V as [V1 V2], ID as [I1 I2]. apply Forall2_app_l in G as (os1 & os2 & -> & G1 & G2).
    exists (card_of os1). split.
    + apply (K us1); auto. destruct us1 as [|u us1]; [now destruct N|]. destruct ST as (u0 & l & E0 & Q). cbn [List.app] in E0. injection E0 as <- _.
      exists u, us1. auto.
    + intros s NS. rewrite !card_of_slot, latest_app. symmetry. apply (latest_none cm s us2 os2 _ G2).
      unfold none_for. rewrite Forall_forall. intros w I. apply (NS (mkTlv (u_fid w) (u_app w) (u_val w))). rewrite T2. now apply data_in.
  - apply Forall_app in V as [V1 V2], ID as [I1 I2]. apply Forall_cons_iff in V2 as [Vu V2], I2 as [Iu I2].
    apply Forall2_app_l in G as (os1 & os2 & -> & G1 & G2). inversion G2 as [|? o ? os3 Gu G3]; subst.
    assert (Gb : exists o', gives cm (bare u) o' /\ forall s, u_field u <> Some s -> forall d, latest s [o'] d = d /\ latest s [o] d = d).
    { unfold gives in *. change (u_field (bare u)) with (u_field u). destruct (u_field u) as [t|].
      - destruct Gu as (x & X & RS & ->). exists (Some (Filed t (x, None))). split; [exists x; auto|].
        intros s NE d. cbn [latest]. rewrite !entry_at_other by (cbn [fl_slot]; congruence). auto.
      - destruct Gu as [Gu ->]. exists None. split; [auto|]. intros s _ d. auto. }
    destruct Gb as (o' & Gb & Lb). exists (card_of (os1 ++ [o'])). split.
    + apply (K (us1 ++ [bare u])); auto.
      * apply Forall_app. split; [exact V1|]. constructor; [|constructor]. destruct Vu as (A1 & A2 & A3 & A4 & A5 & _). exact (conj A1 (conj A2 (conj A3 (conj A4 (conj A5 I))))).
      * apply Forall_app. split; [exact I1|]. constructor; [exact Iu|constructor].
      * apply Forall2_app; [exact G1|]. constructor; [exact Gb|constructor].
      * destruct ST as (u0 & l & E0 & Q0). destruct us1 as [|v us1]; cbn [List.app] in *; injection E0 as -> _; eexists; eexists; split; try reflexivity; exact Q0.
    + intros s NS. rewrite !card_of_slot, !latest_app.
      assert (NU : u_field u <> Some s) by (apply (NS (mkTlv (u_fid u) a sg)); now left).
      rewrite (proj1 (Lb s NU _)). change (o :: os3) with ([o] ++ os3). rewrite latest_app, (proj2 (Lb s NU _)). symmetry.
      apply (latest_none cm s us2 os3 _ G3). unfold none_for. rewrite Forall_forall. intros w I.
      apply (NS (mkTlv (u_fid w) (u_app w) (u_val w))). right. now apply data_in.
Qed.
Print Assumptions C138_cards_partial.

(** * Vehicle units *)

Lemma firstn_nonempty {A} (l : list A) n : l <> [] -> (0 < n)%nat -> firstn n l <> [].
Proof. destruct l, n; cbn; try congruence; lia. Qed.

(** A download is a sequence of transfers in one way only (C49), and every beginning of it is read. *)
Theorem C138_downloads_partial : forall cm d f, bytes_ok d -> unmarshal_file cm d = Ok (vu f) ->
  exists ts, Forall well_formed ts /\ d = download ts /\ forall n, (0 < n)%nat ->
    exists g, unmarshal_file cm (download (firstn n ts)) = Ok (vu g) /\
      match f, g with
      | VuGen1 _, VuGen1 _ | VuGen2V1 _, VuGen2V1 _ | VuGen2V2 _, VuGen2V2 _ => True
      | VuGen2V2 _, VuGen2V1 _ => ~ Exists (fun t => In (fst t) [0x00; 0x31]) (firstn n ts)
      | _, _ => False
      end.
Proof.
  intros cm d f B E. destruct (vu_download cm d f B E) as (H & ts & D & W & M). exists ts. split; [exact W|]. split; [exact D|].
  intros n Hn.
  assert (NE : firstn n ts <> []) by (apply firstn_nonempty; [intros ->; rewrite D in H; discriminate H|exact Hn]).
  assert (B' : bytes_ok (download (firstn n ts))).
  { rewrite D in B. rewrite <- (firstn_skipn n ts), download_app in B. now apply bytes_ok_app in B as [B _]. }
  assert (FN : forall P : transfer -> Prop, Forall P ts -> Forall P (firstn n ts)).
  { intros P. rewrite !Forall_forall. intros A t I. apply A. rewrite <- (firstn_skipn n ts). apply in_app_iff. now left. }
  destruct M as [(g & M & P & _)|[[M K]|(M & K & X)]].
  - assert (A : Forall framed (firstn n ts)).
    { rewrite D in B. pose proof (download_bytes ts B) as BB. apply FN. clear - P W BB.
      induction ts as [|t ts IH]; [constructor|]. apply Forall_cons_iff in W as [W1 W], P as [P1 P], BB as [B1 BB]. constructor; [now apply (framed_iff cm)|auto]. }
    destruct (proj2 (C91_first_generation cm _ B')) as (g' & G'); [eauto|]. exists (VuGen1 g'). injection M as ->. auto.
  - assert (A : Forall framed_v1 (firstn n ts)) by (apply FN; apply (Forall_both _ _ _ _ framed_v1_iff); auto).
    destruct (proj2 (proj1 (C91_second_generation cm _ B'))) as (g' & G'); [eauto|]. exists (VuGen2V1 g'). injection M as ->. auto.
  - assert (A : Forall framed_v2 (firstn n ts)) by (apply FN; apply (Forall_both _ _ _ _ framed_v2_iff); auto).
    destruct (existsb (fun t => (fst t =? 0x00) || (fst t =? 0x31)) (firstn n ts)) eqn:X0.
    + assert (X1 : Exists (fun t => In (fst t) [0x00; 0x31]) (firstn n ts)).
      { apply existsb_exists in X0 as (t & I & T). apply Exists_exists. exists t. split; [exact I|]. cbn. apply orb_true_iff in T as [T|T]; apply Z.eqb_eq in T; auto. }
      destruct (proj2 (proj2 (C91_second_generation cm _ B'))) as (g' & G'); [eauto|]. exists (VuGen2V2 g'). injection M as ->. auto.
    + assert (X1 : ~ Exists (fun t => In (fst t) [0x00; 0x31]) (firstn n ts)).
      { intros Y. apply Exists_exists in Y as (t & I & T). assert (existsb (fun t => (fst t =? 0x00) || (fst t =? 0x31)) (firstn n ts) = true); [|congruence].
        apply existsb_exists. exists t. split; [exact I|]. cbn in T. destruct T as [T|[T|[]]]; rewrite <- T; reflexivity. }
      assert (A1 : Forall framed_v1 (firstn n ts)).
      { rewrite Forall_forall in *. intros t I. destruct (A t I) as [[T _]|[[T _]|T]]; [| |right; exact T];
          exfalso; apply X1; apply Exists_exists; exists t; (split; [exact I|]); rewrite T; cbn; auto. }
      destruct (proj2 (proj1 (C91_second_generation cm _ B'))) as (g' & G'); [eauto|]. exists (VuGen2V1 g'). injection M as ->. auto.
Qed.
Print Assumptions C138_downloads_partial.

(** * Other cards *)

(** A card with a file of no driver card is kept raw; what is left when this record is
    missing is read as a driver card, and refused. *)
Theorem C138_cut_off_refuted : exists ts qs rs e, Forall (fun t => tlv_ok t /\ t_len t <= 65530) (ts ++ qs) /\ ts <> [] /\
  unmarshal_file no_charmap (concat (map enc (ts ++ qs))) = Ok (mkFile FILE_RAW_CARD None None (Some rs)) /\
  unmarshal_file no_charmap (concat (map enc ts)) = Err e.
Proof.
  exists [mkTlv 0x0002 0 (zeros 25); mkTlv 0x0501 0 [1; 2; 3]], [mkTlv 0x050A 0 [7]]. do 2 eexists.
  split; [apply tlv_okb_ok; vm_compute; reflexivity|]. split; [discriminate|]. split; vm_compute; reflexivity.
Qed.
Print Assumptions C138_cut_off_refuted.

(** A card cut off before a signature, and a download cut off behind its first
    transfer. *)
Example C138_example :
  (exists ts qs c, Forall (fun t => tlv_ok t /\ t_len t <= 65530) (ts ++ qs) /\ ts <> [] /\ length qs = 2%nat /\
     unmarshal_file no_charmap (concat (map enc (ts ++ qs))) = Ok (mkFile FILE_DRIVER_CARD None (Some c) None)) /\
  (exists d f, bytes_ok d /\ unmarshal_file no_charmap d = Ok (vu f) /\ (2 <= length sample_download)%nat /\ d = download sample_download).
Proof.
  split.
  - set (us := [icc_unit; ic_unit; mkDumped 0x0501 0 (zeros 10) (Some (1, zeros 128)); mkDumped 0x050E 0 (zeros 4) None]).
    destruct (driver_ok_accepted us) as (V & c & A); [vm_compute; reflexivity|].
    exists (firstn 3 (flat_map u_tlvs us)), (skipn 3 (flat_map u_tlvs us)), c. rewrite firstn_skipn.
    split; [now apply dump_tlvs|]. split; [discriminate|]. split; [reflexivity|exact A].
  - exists (download sample_download). eexists. split; [apply bytes_okb_ok; reflexivity|]. split; [vm_compute; reflexivity|]. split; [vm_compute; lia|reflexivity].
Qed.
