(** Driver card dumps as bytes: which are accepted and what they give. *)

From Coq Require Import Permutation.
From Verif Require Import Base Enums Chunks DDScalar DDString DDRecord RawTypes RawCard P_RawCard Infer Props_RawCard.
From Verif Require Import Field P_Scanner CardBasic P_Basic CardRecords P_Record P_Records.
From Verif Require Import CardIdent P_Ident CardActivity Props_Activity Cert P_Cert DriverCard P_Driver Vu Verify Api.

(** ** Dumps

    A data record and, possibly, a signature record behind it.  The appendix byte of
    a data record is even, that of a signature record odd; bit 1 says second
    generation. *)
Record dumped := mkDumped { u_fid : Z; u_app : Z; u_val : bytes; u_sig : option (Z * bytes) }.

Definition u_gen2 (u : dumped) : bool := Z.odd (u_app u / 2).
Definition u_signature (u : dumped) : option bytes := option_map snd (u_sig u).

Definition dumped_ok (u : dumped) : Prop :=
  0 <= u_fid u < 65536 /\ byte_ok (u_app u) /\ Z.odd (u_app u) = false /\
  bytes_ok (u_val u) /\ Z.of_nat (length (u_val u)) <= 65530 /\
  match u_sig u with
  | None => True
  | Some (a, s) => byte_ok a /\ Z.odd a = true /\ bytes_ok s /\ Z.of_nat (length s) <= 65530
  end.

Definition u_tlvs (u : dumped) : list tlv :=
  mkTlv (u_fid u) (u_app u) (u_val u) ::
  match u_sig u with None => [] | Some (a, s) => [mkTlv (u_fid u) a s] end.

Definition dump (us : list dumped) : bytes := concat (map enc (flat_map u_tlvs us)).

(** ** The files of a driver card by file identifier *)

Definition driver_fids : list Z :=
  [0x0002; 0x0005; 0x0006; 0x0501; 0x0502; 0x0503; 0x0504; 0x0505; 0x0506; 0x0507; 0x0508; 0x050D;
   0x050E; 0x0520; 0x0521; 0x0522; 0x0523; 0x0524; 0x0525; 0x0526; 0x0527; 0x0528; 0x0529; 0x0530;
   0x0540; 0x2F00; 0x2F01; 0xC100; 0xC101; 0xC108; 0xC109].

(** Those without a field in the message. *)
Definition ignored_fids : list Z :=
  [0x0006; 0x050D; 0x0526; 0x0527; 0x0528; 0x0529; 0x0530; 0x0540; 0x2F00; 0x2F01].

(** The fields filled from first- and second-generation records. *)
Definition fields_table : list (Z * option slot * option slot) :=
  [(0x0002, Some S_icc, Some S_icc); (0x0005, Some S_ic, Some S_ic);
   (0x0501, Some S_app_id, Some S2_app_id); (0x0502, Some S_events, Some S2_events);
   (0x0503, Some S_faults, Some S2_faults); (0x0504, Some S_activity, Some S2_activity);
   (0x0505, Some S_vehicles, Some S2_vehicles); (0x0506, Some S_places, Some S2_places);
   (0x0507, Some S_usage, Some S2_usage); (0x0508, Some S_control, Some S2_control);
   (0x050E, Some S_download, Some S2_download); (0x0520, Some S_identification, Some S2_identification);
   (0x0521, Some S_licence, Some S2_licence); (0x0522, Some S_conditions, Some S2_conditions);
   (0x0523, Some S2_units, Some S2_units); (0x0524, Some S2_gnss, Some S2_gnss);
   (0x0525, Some S2_app_v2, Some S2_app_v2);
   (0xC100, Some S_card_cert, None); (0xC101, None, Some S2_sign_cert);
   (0xC108, Some S_ca_cert, Some S2_ca_cert); (0xC109, None, Some S2_link_cert)].

Definition field_of (fid : Z) (gen2 : bool) : option slot :=
  match find (fun p => fst (fst p) =? fid) fields_table with
  | Some (_, s1, s2) => if gen2 then s2 else s1
  | None => None
  end.

Definition u_field (u : dumped) : option slot := field_of (u_fid u) (u_gen2 u).

(** What a unit of a dump contributes. *)
Definition gives (cm : Z -> Z -> Z) (u : dumped) (o : option filed) : Prop :=
  match u_field u with
  | None => In (u_fid u) ignored_fids /\ o = None
  | Some s =>
      exists x, unmarshal_content cm s (u_val u) = Ok x /\
        (rejects_signature s = true -> u_sig u = None) /\ o = Some (Filed s (x, u_signature u))
  end.

(** ** File identifiers *)

Lemma map_fid_inv f : map_fid f <> 0 -> exists i, In (map_fid f, i) file_ids /\ u16 i = f.
Proof.
  unfold map_fid. destruct (find _ file_ids) as [[n i]|] eqn:E; [|intros N; now destruct N]. intros _.
  apply find_some in E as [I Q]. exists i. split; auto. now apply Z.eqb_eq in Q.
Qed.

Definition rev_fid (n : Z) : Z :=
  match find (fun p => fst p =? n) file_ids with Some (_, i) => i | None => 0 end.

Lemma map_fid_rev f : map_fid f <> 0 -> rev_fid (map_fid f) = f.
Proof.
  intros N. destruct (map_fid_inv f N) as (i & I & E).
  assert (T : forallb (fun p => rev_fid (fst p) =? u16 (snd p)) file_ids = true) by reflexivity.
  rewrite forallb_forall in T. specialize (T _ I). cbn [fst snd] in T. apply Z.eqb_eq in T. congruence.
Qed.

Lemma fid_permitted f : In (map_fid f) (permitted 1) <-> In f driver_fids.
Proof.
  split.
  - intros I. assert (N : map_fid f <> 0).
    { intros E. rewrite E in I. apply (fun H => H) in I. cbn in I. repeat destruct I as [I|I]; try discriminate. exact I. }
    assert (T : forallb (fun n => existsb (Z.eqb (rev_fid n)) driver_fids) (permitted 1) = true) by reflexivity.
    rewrite forallb_forall in T. specialize (T _ I). apply existsb_eqb in T. now rewrite map_fid_rev in T.
  - intros I. assert (T : forallb (fun f => existsb (Z.eqb (map_fid f)) (permitted 1)) driver_fids = true) by reflexivity.
    rewrite forallb_forall in T. specialize (T _ I). now apply existsb_eqb in T.
Qed.

Lemma map_fid_inj f g : In f driver_fids -> map_fid g = map_fid f -> g = f.
Proof.
  intros I E. apply fid_permitted in I.
  assert (N : map_fid f <> 0).
  { intros Q. rewrite Q in I. cbn in I. repeat destruct I as [I|I]; try discriminate. exact I. }
  rewrite <- (map_fid_rev f N), <- E. symmetry. apply map_fid_rev. congruence.
Qed.

Definition gen_of (g : bool) : Z := if g then 2 else 1.

Lemma route_fid f g : In f driver_fids ->
  route (map_fid f) (gen_of g) =
  match field_of f g with
  | Some s => Ok (Some s)
  | None => if existsb (Z.eqb f) ignored_fids then Ok None else fail
  end.
Proof.
  intros I. repeat destruct I as [<-|I]; try (destruct g; reflexivity). destruct I.
Qed.

(** ** From records to units *)

Lemma dumped_tlvs u : dumped_ok u -> Forall (fun t => tlv_ok t /\ small t) (u_tlvs u).
Proof.
  intros (F & A & _ & V & L & SG). unfold u_tlvs, tlv_ok, small, t_len, byte_ok in *.
  constructor; [cbn [t_fid t_app t_val]; repeat split; auto; lia|].
  destruct (u_sig u) as [[a s]|]; constructor; auto.
  destruct SG as (A' & _ & V' & L'). cbn [t_fid t_app t_val]. repeat split; auto; lia.
Qed.

Lemma dump_tlvs us : Forall dumped_ok us -> Forall (fun t => tlv_ok t /\ small t) (flat_map u_tlvs us).
Proof.
  induction 1 as [|u us U F IH]; cbn [flat_map]; [constructor|].
  apply Forall_app. split; auto. now apply dumped_tlvs.
Qed.

(** What the raw parser makes of a unit, and the driver card parser's view of it. *)
Definition u_in (u : dumped) : unit_in := (expected (mkTlv (u_fid u) (u_app u) (u_val u)), u_signature u).

Lemma grouped_dump us : Forall dumped_ok us -> grouped (map expected (flat_map u_tlvs us)) (map u_in us).
Proof.
  induction 1 as [|u us U F IH]; cbn [flat_map map]; [constructor|].
  destruct U as (_ & _ & A & _ & _ & SG). unfold u_in at 1, u_tlvs, u_signature.
  destruct (u_sig u) as [[a s]|]; cbn [map List.app option_map snd].
  - change s with (rr_value (expected (mkTlv (u_fid u) a s))) at 2. constructor; auto.
    + unfold expected. cbn [rr_content t_app]. now rewrite A.
    + unfold expected. cbn [rr_content t_app]. destruct SG as (_ & -> & _). reflexivity.
  - constructor; auto.
    + unfold expected. cbn [rr_content t_app]. now rewrite A.
    + destruct F as [|v us V F]; cbn [flat_map map List.app]; auto. right. unfold u_tlvs. cbn [map List.app].
      destruct V as (_ & _ & A' & _). unfold expected. cbn [rr_content t_app]. rewrite A'. discriminate.
Qed.

Lemma grouped_inj rs us vs : grouped rs us -> grouped rs vs -> us = vs.
Proof.
  intros G. revert vs. induction G as [|r rs us' D N G IH|r m rs us' D F C G IH]; intros us G2.
  - inversion G2; auto.
  - inversion G2; subst; [f_equal; auto|]. cbn in N. destruct N; contradiction.
  - inversion G2; subst; [cbn in *; intuition congruence|f_equal; auto].
Qed.

Lemma expected_data t : rr_content (expected t) = CONTENT_DATA <-> Z.odd (t_app t) = false.
Proof. unfold expected. cbn [rr_content]. destruct (Z.odd _); split; try discriminate; reflexivity. Qed.

Lemma expected_signature t : rr_content (expected t) = CONTENT_SIGNATURE <-> Z.odd (t_app t) = true.
Proof. unfold expected. cbn [rr_content]. destruct (Z.odd _); split; try discriminate; reflexivity. Qed.

(** Data records are files of a driver card. *)
Definition driver_tlvs (ts : list tlv) : Prop :=
  Forall (fun t => Z.odd (t_app t) = false -> In (t_fid t) driver_fids) ts.

Lemma dump_of_grouped rs us : grouped rs us ->
  forall ts, rs = map expected ts -> Forall (fun t => tlv_ok t /\ small t) ts -> driver_tlvs ts ->
  exists vs, Forall dumped_ok vs /\ ts = flat_map u_tlvs vs /\ us = map u_in vs /\
    Forall (fun u => In (u_fid u) driver_fids) vs.
Proof.
  induction 1 as [|r rs us D N G IH|r m rs us D FE C G IH]; intros ts E F DT.
  - destruct ts; [|discriminate]. exists []. repeat split; constructor.
  - destruct ts as [|t ts]; [discriminate|]. cbn [map] in E. injection E as -> E.
    inversion F as [|? ? [T S] F']; subst. inversion DT as [|? ? DT1 DT']; subst.
    destruct (IH ts eq_refl F' DT') as (vs & V & -> & -> & I).
    apply expected_data in D.
    exists (mkDumped (t_fid t) (t_app t) (t_val t) None :: vs). cbn [flat_map map u_tlvs u_in u_sig u_fid u_app u_val List.app].
    destruct T as (TF & TA & TV & TL). destruct t as [f a v]. unfold small, t_len, byte_ok in *. cbn [t_fid t_app t_val] in *.
    split; [constructor; auto; unfold dumped_ok, byte_ok; cbn [u_fid u_app u_val u_sig]; repeat split; auto; lia|]. split; [reflexivity|]. split; [reflexivity|].
    constructor; auto.
  - destruct ts as [|t ts]; [discriminate|]. destruct ts as [|t' ts]; [discriminate|].
    cbn [map] in E. injection E as -> -> E.
    inversion F as [|? ? [T S] F1]; subst. inversion F1 as [|? ? [T' S'] F2]; subst.
    inversion DT as [|? ? DT1 DT']; subst. inversion DT' as [|? ? DT2 DT'']; subst.
    destruct (IH ts eq_refl F2 DT'') as (vs & V & -> & -> & I).
    apply expected_data in D. apply expected_signature in C. specialize (DT1 D).
    cbn [expected rr_file] in FE. apply map_fid_inj in FE; auto.
    exists (mkDumped (t_fid t) (t_app t) (t_val t) (Some (t_app t', t_val t')) :: vs).
    cbn [flat_map map u_tlvs u_sig u_fid u_app u_val List.app].
    destruct t as [f a v], t' as [f' a' v']. cbn [t_fid t_app t_val] in *. subst f'.
    destruct T as (TF & TA & TV & TL). destruct T' as (TF' & TA' & TV' & TL').
    unfold small, t_len, byte_ok in *. cbn [t_fid t_app t_val] in *.
    split; [constructor; auto; unfold dumped_ok, byte_ok; cbn [u_fid u_app u_val u_sig]; repeat split; auto; lia|]. split; [reflexivity|]. split; [reflexivity|].
    constructor; auto.
Qed.

(** ** What a unit contributes *)

Lemma gives_entry cm u o : In (u_fid u) driver_fids ->
  (gives cm u o <-> entry_of cm (u_in u) = Ok o).
Proof.
  intros I. unfold gives, entry_of, u_in, u_field. cbn [fst snd expected rr_file rr_generation rr_value t_fid t_app t_val].
  fold (u_gen2 u). change (if u_gen2 u then 2 else 1) with (gen_of (u_gen2 u)). rewrite route_fid by auto.
  destruct (field_of (u_fid u) (u_gen2 u)) as [s|]; cbn [bind].
  - split.
    + intros (x & E & R & ->). rewrite E. cbn [bind].
      destruct (rejects_signature s) eqn:RS; [|reflexivity]. unfold u_signature. rewrite R by auto. reflexivity.
    + intros E. apply bind_ok in E as (x & E & Q). apply bind_ok in Q as ([] & Gd & Q). apply Ok_inj in Q.
      exists x. split; auto. split; auto. intros RS. rewrite RS in Gd. unfold u_signature in Gd.
      destruct (u_sig u); auto. discriminate.
  - destruct (existsb (Z.eqb (u_fid u)) ignored_fids) eqn:X; cbn [bind].
    + apply existsb_eqb in X. split; [intros [_ ->]; auto|]. intros E. apply Ok_inj in E. auto.
    + split; [|discriminate]. intros [Y _]. apply existsb_eqb in Y. congruence.
Qed.

Lemma gives_all cm us os : Forall (fun u => In (u_fid u) driver_fids) us ->
  (Forall2 (gives cm) us os <-> map_res (entry_of cm) (map u_in us) = Ok os).
Proof.
  intros F. revert os. induction F as [|u us I F IH]; intros os; cbn [map map_res].
  - split; [intros H; inversion H; auto|]. intros E. apply Ok_inj in E. subst. constructor.
  - split.
    + intros H. inversion H as [|? o ? os' G R]; subst. apply gives_entry in G; auto. rewrite G. cbn [bind].
      apply IH in R. rewrite R. reflexivity.
    + intros E. apply bind_ok in E as (o & E & Q). apply bind_ok in Q as (os' & R & Q). apply Ok_inj in Q. subst os.
      constructor; [now apply gives_entry|now apply IH].
Qed.

(** ** Inference *)

Lemma infer_driver ts : infer_file_type (map expected ts) = DRIVER_CARD <->
  (exists t, In t ts /\ Z.odd (t_app t) = false) /\ driver_tlvs ts.
Proof.
  assert (F0 : fits (map expected ts) 0 <-> ~ exists t, In t ts /\ Z.odd (t_app t) = false).
  { unfold fits. cbn. split.
    - intros H (t & I & O). apply (H (map_fid (t_fid t))). exists (expected t). split; [now apply in_map|].
      split; [now apply expected_data|reflexivity].
    - intros H f (r & I & D & _). apply H. apply in_map_iff in I as (t & <- & I). exists t. split; auto.
      now apply expected_data. }
  assert (F1 : fits (map expected ts) 1 <-> driver_tlvs ts).
  { unfold fits, driver_tlvs. rewrite Forall_forall. split.
    - intros H t I O. apply fid_permitted. apply H. exists (expected t). split; [now apply in_map|].
      split; [now apply expected_data|reflexivity].
    - intros H f (r & I & D & <-). apply in_map_iff in I as (t & <- & I). cbn [expected rr_file].
      apply fid_permitted. apply H; auto. now apply expected_data. }
  pose proof (proj1 C08_inference_is_set_based (map expected ts)) as [RNG C].
  split.
  - intros E. rewrite E in C. destruct C as [[_ C]|[C1 C2]]; [discriminate|]. split; [|now apply F1].
    assert (N : ~ fits (map expected ts) 0) by (apply C2; unfold DRIVER_CARD; lia).
    destruct (existsb (fun t => negb (Z.odd (t_app t))) ts) eqn:X.
    + apply existsb_exists in X as (t & I & O). exists t. split; auto. now apply negb_true_iff.
    + exfalso. apply N, F0. intros (t & I & O).
      assert (existsb (fun t => negb (Z.odd (t_app t))) ts = true); [|congruence].
      apply existsb_exists. exists t. rewrite O. auto.
  - intros [HD DT]. apply F1 in DT. destruct C as [[C _]|[C1 C2]].
    + exfalso. apply (C 1); [lia|auto].
    + assert (infer_file_type (map expected ts) <= 1).
      { destruct (Z.le_gt_cases (infer_file_type (map expected ts)) 1); auto. exfalso. apply (C2 1); [lia|auto]. }
      assert (infer_file_type (map expected ts) <> 0).
      { intros Q. rewrite Q in C1. apply F0 in C1. auto. }
      unfold DRIVER_CARD. lia.
Qed.

(** ** Whole files *)

Lemma enc_head ts : ts <> [] -> Forall (fun t => tlv_ok t /\ small t) ts ->
  exists t ts', ts = t :: ts' /\ nth 0 (encs ts) 0 = t_fid t / 256 /\ be (sub (encs ts) 0 2) = t_fid t /\
    (2 <= length (encs ts))%nat.
Proof.
  intros N F. destruct ts as [|t ts]; [congruence|]. exists t, ts. split; auto.
  inversion F as [|? ? [(FF & _) _] _]; subst. unfold encs. cbn [map concat enc List.app].
  split; [reflexivity|]. split; [|cbn [length]; lia].
  unfold sub. cbn [skipn firstn]. apply be_len. lia.
Qed.

(** Framing, dispatch and inference in one statement. *)
Theorem card_file cm ts t ts' : ts = t :: ts' -> Forall (fun t => tlv_ok t /\ small t) ts -> t_fid t = 2 ->
  unmarshal_file cm (encs ts) =
  if infer_file_type (map expected ts) =? DRIVER_CARD then
    let* c := unmarshal_driver_card cm (map expected ts) in Ok (mkFile FILE_DRIVER_CARD None (Some c) None)
  else Ok (mkFile FILE_RAW_CARD None None (Some (map expected ts))).
Proof.
  intros E F T. destruct (enc_head ts) as (t0 & ts0 & E0 & H1 & H2 & H3); [subst; discriminate|auto|].
  assert (t0 = t) as -> by congruence. rewrite T in H1, H2.
  unfold unmarshal_file. destruct (Nat.ltb_spec (length (encs ts)) 2); [lia|].
  rewrite H1, H2. change (2 / 256 =? 118) with false. change (2 =? 2) with true. cbv iota.
  pose proof (raw_card_ok ts [] F) as R. rewrite app_nil_r in R. rewrite R by (left; cbn; lia). reflexivity.
Qed.

Definition starts_with_icc (us : list dumped) : Prop := exists u us', us = u :: us' /\ u_fid u = 0x0002.

Lemma dump_encs us : dump us = encs (flat_map u_tlvs us).
Proof. reflexivity. Qed.

Lemma dump_driver us : Forall dumped_ok us ->
  driver_tlvs (flat_map u_tlvs us) <-> Forall (fun u => In (u_fid u) driver_fids) us.
Proof.
  unfold driver_tlvs. induction 1 as [|u us U F IH]; cbn [flat_map]; [split; constructor|].
  rewrite Forall_app, IH, Forall_cons_iff.
  assert (Forall (fun t => Z.odd (t_app t) = false -> In (t_fid t) driver_fids) (u_tlvs u) <-> In (u_fid u) driver_fids).
  { destruct U as (_ & _ & A & _ & _ & SG). unfold u_tlvs. rewrite Forall_cons_iff. cbn [t_fid t_app].
    split; [intros [H _]; auto|]. intros H. split; auto.
    destruct (u_sig u) as [[a s]|]; constructor; auto. }
  tauto.
Qed.

(** The files read as driver cards, and what is read. *)
Theorem driver_parse cm d f : bytes_ok d ->
  (unmarshal_file cm d = Ok f /\ file_type f = FILE_DRIVER_CARD <->
   exists us os, Forall dumped_ok us /\ d = dump us /\ starts_with_icc us /\
     Forall (fun u => In (u_fid u) driver_fids) us /\ Forall2 (gives cm) us os /\
     f = mkFile FILE_DRIVER_CARD None (Some (card_of os)) None).
Proof.
  intros B. split.
  - intros [E T]. unfold unmarshal_file in E.
    destruct (Nat.ltb_spec (length d) 2) as [L|L]; [discriminate|].
    destruct (Z.eqb_spec (nth 0 d 0) 0x76) as [X|X].
    { apply bind_ok in E as (v & _ & E). apply Ok_inj in E. subst f. discriminate. }
    destruct (Z.eqb_spec (be (sub d 0 2)) 2) as [Y|Y]; [|discriminate].
    apply bind_ok in E as (rs & R & E). destruct (Z.eqb_spec (infer_file_type rs) DRIVER_CARD) as [I|I];
      [|apply Ok_inj in E; subst f; discriminate].
    apply bind_ok in E as (c & C & E). apply Ok_inj in E. subst f.
    apply raw_card_inv in R as (ts & F & -> & ->); auto.
    apply infer_driver in I as [_ DT].
    apply unmarshal_driver_card_ok in C as (us & os & G & M & ->).
    destruct (dump_of_grouped _ _ G ts eq_refl F DT) as (vs & V & -> & -> & I).
    exists vs, os. split; auto. split; [reflexivity|]. split.
    + destruct (enc_head (flat_map u_tlvs vs)) as (t & ts' & E & _ & H2 & _); auto.
      { intros Q. rewrite Q in L. cbn in L. lia. }
      destruct vs as [|v vs]; [discriminate|]. exists v, vs. split; auto. rewrite H2 in Y.
      cbn [flat_map u_tlvs List.app] in E. injection E as <- _. exact Y.
    + split; auto. split; auto. now apply gives_all.
  - intros (us & os & V & -> & (u & us' & E & U) & I & G & ->). split; [|reflexivity].
    pose proof (dump_tlvs us V) as F.
    rewrite dump_encs. rewrite (card_file cm _ (mkTlv (u_fid u) (u_app u) (u_val u))
      (match u_sig u with None => [] | Some (a, s) => [mkTlv (u_fid u) a s] end ++ flat_map u_tlvs us')); auto;
      [|subst us; reflexivity].
    replace (infer_file_type _ =? DRIVER_CARD) with true.
    + assert (C : unmarshal_driver_card cm (map expected (flat_map u_tlvs us)) = Ok (card_of os)).
      { apply unmarshal_driver_card_ok. exists (map u_in us), os. split; [now apply grouped_dump|].
        split; auto. now apply gives_all. }
      rewrite C. reflexivity.
    + symmetry. apply Z.eqb_eq. apply infer_driver. split; [|now apply dump_driver].
      exists (mkTlv (u_fid u) (u_app u) (u_val u)). subst us. split; [now left|].
      inversion V as [|? ? (_ & _ & A & _) _]. exact A.
Qed.

(** Dumps are determined by their bytes. *)
Lemma u_tlvs_inj us vs : Forall dumped_ok us -> Forall dumped_ok vs ->
  flat_map u_tlvs us = flat_map u_tlvs vs -> us = vs.
Proof.
  intros F. revert vs. induction F as [|u us U F IH]; intros vs G E.
  - destruct vs; auto. discriminate.
  - destruct G as [|v vs V G]; [discriminate|].
    cbn [flat_map] in E. unfold u_tlvs at 1 3 in E. cbn [List.app] in E. injection E as E1 E2 E3 E.
    destruct u as [f a x sg], v as [f' a' x' sg']. cbn [u_fid u_app u_val u_sig] in *. subst f' a' x'.
    destruct U as (_ & _ & _ & _ & _ & SU), V as (_ & _ & _ & _ & _ & SV). cbn [u_sig] in *.
    assert (Next : forall (ws : list dumped) t rest, Forall dumped_ok ws -> flat_map u_tlvs ws = t :: rest ->
              Z.odd (t_app t) = false).
    { intros ws t rest W Q. destruct W as [|w ws W _]; [discriminate|]. cbn [flat_map u_tlvs List.app] in Q.
      injection Q as <- _. apply W. }
    destruct sg as [[b s]|], sg' as [[b' s']|]; cbn [List.app] in E.
    + injection E as E1 E2 E. subst. f_equal. auto.
    + symmetry in E. apply Next in E; auto. cbn [t_app] in E. destruct SU as (_ & O & _). congruence.
    + apply Next in E; auto. cbn [t_app] in E. destruct SV as (_ & O & _). congruence.
    + f_equal. auto.
Qed.

Lemma dump_inj us vs : Forall dumped_ok us -> Forall dumped_ok vs -> dump us = dump vs -> us = vs.
Proof.
  intros F G E. apply u_tlvs_inj; auto. apply C03_card_framing_injective; auto; now apply dump_tlvs.
Qed.

Lemma dump_bytes_ok us : Forall dumped_ok us -> bytes_ok (dump us).
Proof.
  intros F. rewrite dump_encs. apply dump_tlvs in F. unfold encs.
  induction F as [|t ts [T _] F IH]; cbn [map concat]; [constructor|].
  apply bytes_ok_app. split; auto. now apply enc_ok.
Qed.

(** An accepted dump given by its units. *)
Definition accepted (cm : Z -> Z -> Z) (us : list dumped) (c : driver_card) : Prop :=
  unmarshal_file cm (dump us) = Ok (mkFile FILE_DRIVER_CARD None (Some c) None).

Lemma accepted_iff cm us c : Forall dumped_ok us ->
  (accepted cm us c <-> exists os, starts_with_icc us /\ Forall (fun u => In (u_fid u) driver_fids) us /\
     Forall2 (gives cm) us os /\ c = card_of os).
Proof.
  intros V. unfold accepted. split.
  - intros E. destruct (proj1 (driver_parse cm (dump us) _ (dump_bytes_ok us V)) (conj E eq_refl))
      as (vs & os & W & D & Sx & I & G & Q).
    apply dump_inj in D; auto. subst vs. injection Q as Q. exists os. auto.
  - intros (os & Sx & I & G & ->). apply (proj2 (driver_parse cm (dump us) _ (dump_bytes_ok us V))).
    exists us, os. auto 10.
Qed.

Lemma accepted_bytes cm d c : bytes_ok d ->
  unmarshal_file cm d = Ok (mkFile FILE_DRIVER_CARD None (Some c) None) ->
  exists us, Forall dumped_ok us /\ d = dump us /\ accepted cm us c.
Proof.
  intros B E. destruct (proj1 (driver_parse cm d _ B) (conj E eq_refl)) as (vs & os & W & D & Sx & I & G & Q).
  exists vs. split; auto. split; auto. unfold accepted. now rewrite <- D.
Qed.

(** ** Fields of the card *)

Lemma latest_app s a b d : latest s (a ++ b) d = latest s b (latest s a d).
Proof. revert d. induction a as [|[e|] a IH]; intros d; cbn [List.app latest]; auto. Qed.

(** No unit in the list fills the field. *)
Definition none_for (s : slot) (us : list dumped) : Prop := Forall (fun u => u_field u <> Some s) us.

Lemma latest_none cm s us os d : Forall2 (gives cm) us os -> none_for s us -> latest s os d = d.
Proof.
  intros G. induction G as [|u o us os U G IH]; intros N; inversion N as [|? ? N1 N2]; subst; cbn [latest]; auto.
  unfold gives in U. destruct (u_field u) as [t|] eqn:F.
  - destruct U as (x & _ & _ & ->). rewrite entry_at_other; auto. cbn [fl_slot]. congruence.
  - destruct U as [_ ->]. auto.
Qed.

Lemma none_for_dec s us : none_for s us \/
  exists a u b, us = a ++ u :: b /\ u_field u = Some s /\ none_for s b.
Proof.
  induction us as [|u us IH]; [left; constructor|].
  destruct IH as [IH|(a & v & b & -> & V & N)].
  - destruct (u_field u) as [t|] eqn:F; [destruct (slot_eq_dec t s) as [->|Ne]|].
    + right. exists [], u, us. auto.
    + left. constructor; auto. congruence.
    + left. constructor; auto. congruence.
  - right. exists (u :: a), v, b. auto.
Qed.

Lemma Forall2_app_l {A B} (R : A -> B -> Prop) a b os : Forall2 R (a ++ b) os ->
  exists p q, os = p ++ q /\ Forall2 R a p /\ Forall2 R b q.
Proof. intros H. apply Forall2_app_inv_l in H as (p & q & P & Q & E). exists p, q. auto. Qed.

Lemma card_last cm us os s u a b : Forall2 (gives cm) us os -> us = a ++ u :: b -> u_field u = Some s ->
  none_for s b -> exists x, unmarshal_content cm s (u_val u) = Ok x /\
    (rejects_signature s = true -> u_sig u = None) /\
    slot_of_card (card_of os) s = Some (x, u_signature u).
Proof.
  intros G -> F N. apply Forall2_app_l in G as (p & q & -> & P & Q).
  inversion Q as [|? o ? q' U Q']; subst. unfold gives in U. rewrite F in U.
  destruct U as (x & E & R & ->). exists x. split; auto. split; auto.
  rewrite card_of_slot, latest_app. cbn [latest]. rewrite entry_at_self. apply (latest_none cm s b); auto.
Qed.

Lemma card_none cm us os s : Forall2 (gives cm) us os -> none_for s us -> slot_of_card (card_of os) s = None.
Proof. intros G N. rewrite card_of_slot. apply (latest_none cm s us); auto. Qed.

Lemma card_some cm us os s e : Forall2 (gives cm) us os -> slot_of_card (card_of os) s = Some e ->
  exists a u b, us = a ++ u :: b /\ u_field u = Some s /\ none_for s b /\
    (rejects_signature s = true -> u_sig u = None) /\
    unmarshal_content cm s (u_val u) = Ok (fst e) /\ snd e = u_signature u.
Proof.
  intros G E. destruct (none_for_dec s us) as [N|(a & u & b & D & U & N)].
  - rewrite (card_none cm us os s) in E by auto. discriminate.
  - exists a, u, b. destruct (card_last cm us os s u a b) as (x & X & R & Y); auto.
    rewrite E in Y. injection Y as ->. cbn [fst snd]. auto 10.
Qed.

Lemma card_has cm us os a : Forall2 (gives cm) us os ->
  dc_has (card_of os) a = true <-> a = Master \/ exists u s, In u us /\ u_field u = Some s /\ slot_app s = a.
Proof.
  intros G. rewrite card_of_has, orb_true_iff, app_eqb_eq.
  assert (H : existsb (in_app a) os = true <-> exists u s, In u us /\ u_field u = Some s /\ slot_app s = a); [|tauto].
  induction G as [|u o us os U G IH]; cbn [existsb].
  - split; [discriminate|]. intros (u & s & [] & _).
  - rewrite orb_true_iff, IH. unfold gives in U. split.
    + intros [H|(v & s & I & R)]; [|exists v, s; split; [now right|auto]].
      destruct (u_field u) as [s|] eqn:F.
      * destruct U as (x & _ & _ & ->). cbn [in_app fl_slot] in H. apply app_eqb_eq in H.
        exists u, s. split; [now left|auto].
      * destruct U as [_ ->]. discriminate.
    + intros (v & s & [<-|I] & F & Q).
      * left. rewrite F in U. destruct U as (x & _ & _ & ->). cbn [in_app fl_slot]. now apply app_eqb_eq.
      * right. exists v, s. auto.
Qed.
