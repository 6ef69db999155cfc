(** C01, C02, C05, C09 to C15: which dumps are accepted and what they become. *)

From Coq Require Import Permutation.
From Verif Require Import Base Enums Chunks DDScalar RawTypes RawCard P_RawCard Infer Props_RawCard.
From Verif Require Import CardBasic P_Records Cert P_Cert DriverCard P_Driver Vu Verify Api P_Dump.
From Verif Require Props_Cert.

(** * C01: the kind of file is decided by the leading bytes *)

(** Files as the exported type: at most one payload, matching the type. *)
Definition one_payload (f : file) : Prop :=
  (exists v, f = mkFile FILE_VEHICLE_UNIT (Some v) None None) \/
  (exists c, f = mkFile FILE_DRIVER_CARD None (Some c) None) \/
  (exists rs, f = mkFile FILE_RAW_CARD None None (Some rs)).

Lemma be_two a b : byte_ok a -> byte_ok b -> be [a; b] = 2 <-> a = 0 /\ b = 2.
Proof. unfold byte_ok, be. cbn [be_acc]. lia. Qed.

Theorem C01_dispatch : forall cm d, bytes_ok d ->
  (* an accepted file has exactly one payload, of its type *)
  (forall f, unmarshal_file cm d = Ok f -> one_payload f) /\
  (* and the leading bytes of that type *)
  (forall f, unmarshal_file cm d = Ok f ->
     (file_type f = FILE_VEHICLE_UNIT <-> firstn 1 d = [0x76]) /\
     (file_type f = FILE_DRIVER_CARD \/ file_type f = FILE_RAW_CARD <-> firstn 2 d = [0x00; 0x02])) /\
  (* everything else is rejected with an error *)
  (firstn 1 d <> [0x76] -> firstn 2 d <> [0x00; 0x02] -> exists e, unmarshal_file cm d = Err e) /\
  ((length d < 2)%nat -> exists e, unmarshal_file cm d = Err e).
Proof.
  intros cm d B. unfold unmarshal_file.
  destruct d as [|a d]; [|destruct d as [|b d]].
  1,2: cbn [length Nat.ltb Nat.leb]; split; [discriminate|]; split; [discriminate|]; eauto.
  inversion B as [|? ? Ba B']; subst. inversion B' as [|? ? Bb _]; subst.
  change (length (a :: b :: d) <? 2)%nat with false. cbn [nth]. unfold sub. cbn [skipn firstn].
  destruct (Z.eqb_spec a 0x76) as [->|Na]; cbv iota.
  { split; [|split; [|split]].
    - intros f E. apply bind_ok in E as (v & _ & E). apply Ok_inj in E. left. eauto.
    - intros f E. apply bind_ok in E as (v & _ & E). apply Ok_inj in E. subst f. cbn [file_type].
      split; [tauto|]. split; [intros [E|E]; discriminate|discriminate].
    - congruence.
    - cbn [length]. lia. }
  pose proof (be_two a b Ba Bb) as T. destruct (Z.eqb_spec (be [a; b]) 2) as [E2|E2].
  - apply T in E2 as [-> ->]. split; [|split; [|split]].
    + intros f E. apply bind_ok in E as (rs & _ & E). destruct (_ =? DRIVER_CARD).
      * apply bind_ok in E as (c & _ & E). apply Ok_inj in E. right. left. eauto.
      * apply Ok_inj in E. right. right. eauto.
    + intros f E. apply bind_ok in E as (rs & _ & E). destruct (_ =? DRIVER_CARD).
      * apply bind_ok in E as (c & _ & E). apply Ok_inj in E. subst f. cbn [file_type].
        split; [split; discriminate|tauto].
      * apply Ok_inj in E. subst f. cbn [file_type]. split; [split; discriminate|tauto].
    + congruence.
    + cbn [length]. lia.
  - split; [discriminate|]. split; [discriminate|]. unfold fail. eauto.
Qed.
Print Assumptions C01_dispatch.

Definition no_charmap : Z -> Z -> Z := fun _ _ => 0.

Example C01_example :
  (exists c, unmarshal_file no_charmap ([0x00; 0x02; 0x00; 0x00; 25] ++ zeros 25) =
     Ok (mkFile FILE_DRIVER_CARD None (Some c) None)) /\
  (exists rs, unmarshal_file no_charmap [0x00; 0x02; 0x01; 0x00; 1; 7] = Ok (mkFile FILE_RAW_CARD None None (Some rs))) /\
  (exists v, unmarshal_file no_charmap ([0x76; 0x00] ++ zeros 2) = Ok (mkFile FILE_VEHICLE_UNIT (Some v) None None)) /\
  unmarshal_file no_charmap [0x00; 0x03; 0x00] = fail.
Proof.
  split; [eexists; vm_compute; reflexivity|]. split; [eexists; vm_compute; reflexivity|].
  split; [eexists; vm_compute; reflexivity|reflexivity].
Qed.

(** * C02: raw card files come back byte for byte *)

Lemma marshal_expected ts : Forall (fun t => tlv_ok t /\ small t) ts ->
  marshal_raw_card_file (map expected ts) = Ok (encs ts).
Proof.
  intros F. unfold marshal_raw_card_file, encs. f_equal.
  induction F as [|t ts [T _] F IH]; cbn [map flat_map concat]; auto. rewrite IH, append_expected; auto.
Qed.

Theorem C02_raw_card_round_trip : forall cm d f, bytes_ok d ->
  unmarshal_file cm d = Ok f -> file_type f = FILE_RAW_CARD -> marshal_file (Some f) = Ok d.
Proof.
  intros cm d f B E T. pose proof (C01_dispatch cm d B) as (P & _).
  destruct (P f E) as [(v & ->)|[(c & ->)|(rs & ->)]]; try discriminate. clear P T.
  unfold unmarshal_file in E. destruct (_ <? 2)%nat; [discriminate|].
  destruct (_ =? 118); [apply bind_ok in E as (v & _ & E); discriminate|].
  destruct (_ =? 2); [|discriminate]. apply bind_ok in E as (rs' & R & E).
  destruct (_ =? DRIVER_CARD); [apply bind_ok in E as (c & _ & E); discriminate|].
  apply Ok_inj in E. injection E as ->. apply raw_card_inv in R as (ts & F & -> & ->); auto.
  unfold marshal_file. cbn [file_type file_raw_card]. change (FILE_RAW_CARD =? FILE_DRIVER_CARD) with false.
  change (FILE_RAW_CARD =? FILE_VEHICLE_UNIT) with false. rewrite Z.eqb_refl. now apply marshal_expected.
Qed.
Print Assumptions C02_raw_card_round_trip.

(** A workshop card file: identification and calibration data. *)
Example C02_example :
  let d := [0x00; 0x02; 0x00; 0x00; 2; 1; 2] ++ [0x05; 0x0A; 0x02; 0x00; 1; 9] ++ [0x05; 0x0A; 0x03; 0x00; 0] in
  exists rs, unmarshal_file no_charmap d = Ok (mkFile FILE_RAW_CARD None None (Some rs)) /\ length rs = 3%nat /\
    marshal_file (Some (mkFile FILE_RAW_CARD None None (Some rs))) = Ok d.
Proof. eexists. split; [vm_compute; reflexivity|]. split; reflexivity. Qed.

(** * C05: no panics on card dumps *)

Theorem C05_no_panic_partial : forall cm d, bytes_ok d -> firstn 1 d <> [0x76] ->
  (* exactly the dumps with a record of 65531 bytes behind records of at most
     65530 crash the process; missing from the full claim *)
  (unmarshal_file cm d = Panic <->
   firstn 2 d = [0x00; 0x02] /\
   exists ts t x, d = concat (map enc ts) ++ enc t ++ x /\
     Forall (fun t => tlv_ok t /\ t_len t <= 65530) ts /\ tlv_ok t /\ t_len t = 65531).
Proof.
  intros cm d B N. split.
  - intros P. assert (F2 : firstn 2 d = [0; 2]).
    { destruct (list_eq_dec Z.eq_dec (firstn 2 d) [0; 2]); auto. exfalso.
      destruct (C01_dispatch cm d B) as (_ & _ & R & _). destruct (R N n) as (e & E). congruence. }
    split; auto. apply raw_card_panic_iff; auto. unfold unmarshal_file in P.
    destruct (_ <? 2)%nat; [discriminate|].
    destruct d as [|a d]; [discriminate|]. destruct d as [|b d]; [discriminate|].
    cbn [firstn] in F2. injection F2 as -> ->. cbn [nth] in P. change (0 =? 118) with false in P.
    change (be (sub (0 :: 2 :: d) 0 2) =? 2) with true in P. cbv iota in P.
    destruct (unmarshal_raw_card_file (0 :: 2 :: d)) as [rs|e|] eqn:R; cbn [bind] in P; try discriminate; auto.
    exfalso. destruct (_ =? DRIVER_CARD); [|discriminate].
    apply raw_card_inv in R as (ts & F & _ & ->); auto.
    assert (NP : unmarshal_driver_card cm (map expected ts) <> Panic).
    { apply unmarshal_driver_card_no_panic. apply Forall_map. eapply Forall_impl; [|exact F].
      intros t [(_ & _ & V & _) _]. exact V. }
    destruct (unmarshal_driver_card cm (map expected ts)); cbn [bind] in P; congruence.
  - intros [F2 X]. apply raw_card_panic_iff in X; auto. unfold unmarshal_file.
    destruct d as [|a d]; [discriminate|]. destruct d as [|b d]; [discriminate|].
    cbn [firstn] in F2. injection F2 as -> ->. change (length (0 :: 2 :: d)%Z <? 2)%nat with false.
    cbn [nth]. change (0 =? 118) with false. change (be (sub (0 :: 2 :: d) 0 2) =? 2) with true. cbv iota.
    now rewrite X.
Qed.
Print Assumptions C05_no_panic_partial.

Lemma zeros_bytes_ok n : bytes_ok (zeros n).
Proof. unfold zeros. induction n; cbn [repeat]; constructor; auto. unfold byte_ok. lia. Qed.

Theorem C05_no_panic_refuted : forall cm, exists d, bytes_ok d /\ firstn 1 d <> [0x76] /\ unmarshal_file cm d = Panic.
Proof.
  intros cm. set (t := mkTlv 2 0 (zeros (Z.to_nat 65531))).
  assert (L : t_len t = 65531) by (unfold t, t_len; cbn [t_val]; rewrite zeros_length; lia).
  assert (T : tlv_ok t).
  { split; [cbn; lia|]. split; [unfold byte_ok; cbn; lia|]. split; [apply zeros_bytes_ok|]. lia. }
  exists (enc t). assert (B : bytes_ok (enc t)) by now apply enc_ok.
  split; [exact B|]. assert (N : firstn 1 (enc t) <> [0x76]) by discriminate. split; [exact N|].
  apply (C05_no_panic_partial cm (enc t) B N). split; [reflexivity|].
  exists [], t, []. rewrite app_nil_r. split; [reflexivity|]. split; [constructor|]. split; [exact T|exact L].
Qed.
Print Assumptions C05_no_panic_refuted.

(** * C09: only driver cards are parsed as driver cards *)

Definition common_fids : list Z :=
  [0x0002; 0x0005; 0x0006; 0x2F00; 0x2F01; 0x0501; 0x0520; 0xC100; 0xC101; 0xC108; 0xC109; 0x0525; 0x0540].
Definition recording_fids : list Z :=
  [0x0502; 0x0503; 0x0504; 0x0505; 0x0506; 0x0507; 0x0508; 0x0522; 0x0523; 0x050D; 0x0524; 0x0526; 0x0527;
   0x0528; 0x0529; 0x0530].
Definition workshop_fids : list Z := common_fids ++ recording_fids ++ [0x0509; 0x050A; 0x050B; 0x0531].
Definition control_fids : list Z := common_fids ++ [0x050C].
Definition company_fids : list Z := common_fids ++ [0x050D].

(** The data records of a dump are exactly these files. *)
Definition complete (fids : list Z) (ts : list tlv) : Prop :=
  forall f, In f fids <-> exists t, In t ts /\ Z.odd (t_app t) = false /\ t_fid t = f.

Definition well_framed (ts : list tlv) : Prop :=
  Forall (fun t => tlv_ok t /\ t_len t <= 65530) ts /\ exists t ts', ts = t :: ts' /\ t_fid t = 0x0002.

(** Missing: company cards (see the refutation).  The first part says for every
    dump when it is kept raw. *)
Theorem C09_card_types_partial : forall cm ts, well_framed ts ->
  ((exists t, In t ts /\ Z.odd (t_app t) = false /\ ~ In (t_fid t) driver_fids) \/
   (forall t, In t ts -> Z.odd (t_app t) = true) ->
   unmarshal_file cm (concat (map enc ts)) = Ok (mkFile FILE_RAW_CARD None None (Some (map expected ts)))) /\
  (complete workshop_fids ts \/ complete control_fids ts ->
   unmarshal_file cm (concat (map enc ts)) = Ok (mkFile FILE_RAW_CARD None None (Some (map expected ts)))).
Proof.
  intros cm ts [F (t & ts' & E & T)].
  assert (A : (exists t, In t ts /\ Z.odd (t_app t) = false /\ ~ In (t_fid t) driver_fids) \/
     (forall t, In t ts -> Z.odd (t_app t) = true) ->
     unmarshal_file cm (concat (map enc ts)) = Ok (mkFile FILE_RAW_CARD None None (Some (map expected ts)))).
  { intros H. change (concat (map enc ts)) with (encs ts). rewrite (card_file cm ts t ts' E F T).
    destruct (Z.eqb_spec (infer_file_type (map expected ts)) DRIVER_CARD) as [I|I]; [|reflexivity].
    exfalso. apply infer_driver in I as [(u & U & O) D]. destruct H as [(v & V & P & N)|H].
    - unfold driver_tlvs in D. rewrite Forall_forall in D. auto.
    - rewrite H in O by auto. discriminate. }
  split; [exact A|]. intros H. apply A. left. destruct H as [H|H].
  - destruct (proj1 (H 0x0509)) as (u & U & O & X).
    { unfold workshop_fids. rewrite !in_app_iff. right. right. cbn. auto. }
    exists u. split; auto. split; auto. rewrite X. intros Y. apply existsb_eqb in Y. discriminate.
  - destruct (proj1 (H 0x050C)) as (u & U & O & X).
    { unfold control_fids. rewrite !in_app_iff. right. cbn. auto. }
    exists u. split; auto. split; auto. rewrite X. intros Y. apply existsb_eqb in Y. discriminate.
Qed.
Print Assumptions C09_card_types_partial.

Definition sample_certificate : bytes :=
  Props_Cert.sample_ecc [0; 0; 0; 0; 0; 0; 0; 42] [93; 0; 0; 0] [107; 0; 0; 0] (repeat 1 32) (repeat 2 32)
    (repeat 3 32) (repeat 4 32).

Definition company_dump : list tlv :=
  [mkTlv 0x0002 0 (zeros 25); mkTlv 0x0005 0 (zeros 8); mkTlv 0x2F00 0 []; mkTlv 0x2F01 0 []; mkTlv 0x0006 0 [];
   mkTlv 0x0501 0 (3 :: zeros 9); mkTlv 0x0520 0 (zeros 143); mkTlv 0xC100 0 (zeros 194);
   mkTlv 0xC108 0 (zeros 194); mkTlv 0x050D 0 (zeros 2); mkTlv 0xC101 2 sample_certificate;
   mkTlv 0xC109 2 sample_certificate; mkTlv 0x0525 2 (zeros 4); mkTlv 0x0540 2 []].

(** The application identification of a company card has five bytes. *)
Definition company_dump' : list tlv :=
  map (fun t => if t_fid t =? 0x0501 then mkTlv 0x0501 0 [3; 0; 0; 0; 0] else t) company_dump.

Definition complete_b (fids : list Z) (ts : list tlv) : bool :=
  forallb (fun f => existsb (fun t => negb (Z.odd (t_app t)) && (t_fid t =? f)) ts) fids &&
  forallb (fun t => Z.odd (t_app t) || existsb (Z.eqb (t_fid t)) fids) ts.

Lemma complete_b_ok fids ts : complete_b fids ts = true -> complete fids ts.
Proof.
  unfold complete_b, complete. rewrite andb_true_iff, !forallb_forall. intros [A B] f. split.
  - intros I. apply A in I. apply existsb_exists in I as (t & I & H). apply andb_true_iff in H as [O H].
    exists t. apply negb_true_iff in O. apply Z.eqb_eq in H. auto.
  - intros (t & I & O & <-). specialize (B t I). rewrite O in B. cbn [orb] in B. now apply existsb_eqb in B.
Qed.

Definition tlv_okb (t : tlv) : bool :=
  (0 <=? t_fid t) && (t_fid t <? 65536) && (0 <=? t_app t) && (t_app t <? 256) && bytes_okb (t_val t) &&
  (t_len t <=? 65530).

Lemma tlv_okb_ok ts : forallb tlv_okb ts = true -> Forall (fun t => tlv_ok t /\ t_len t <= 65530) ts.
Proof.
  rewrite forallb_forall, Forall_forall. intros H t I. specialize (H t I). unfold tlv_okb in H.
  rewrite !andb_true_iff in H. destruct H as (((((A & B) & C) & D) & E) & L).
  apply bytes_okb_ok in E. apply Z.leb_le in A, C, L. apply Z.ltb_lt in B, D.
  unfold tlv_ok, byte_ok. repeat split; auto; lia.
Qed.

Lemma company_framed ts : ts = company_dump \/ ts = company_dump' -> well_framed ts /\ complete company_fids ts.
Proof.
  intros [-> | ->].
  - split; [split|].
    + apply tlv_okb_ok. vm_compute. reflexivity.
    + eexists. eexists. split; reflexivity.
    + apply complete_b_ok. vm_compute. reflexivity.
  - split; [split|].
    + apply tlv_okb_ok. vm_compute. reflexivity.
    + eexists. eexists. split; reflexivity.
    + apply complete_b_ok. vm_compute. reflexivity.
Qed.

Lemma driver_result cm d : bytes_ok d ->
  match unmarshal_file cm d with Ok f => file_type f =? FILE_DRIVER_CARD | _ => false end = true ->
  exists c, unmarshal_file cm d = Ok (mkFile FILE_DRIVER_CARD None (Some c) None).
Proof.
  intros B H. destruct (unmarshal_file cm d) as [f|e|] eqn:U; try discriminate.
  destruct (proj1 (C01_dispatch cm d B) f U) as [(v & ->)|[(c & ->)|(rs & ->)]]; try discriminate. eauto.
Qed.

(** Company card dumps are never kept raw: one is returned as a driver card, one is
    rejected, and these are the only outcomes. *)
Theorem C09_card_types_refuted :
  (exists ts c, well_framed ts /\ complete company_fids ts /\
     unmarshal_file no_charmap (concat (map enc ts)) = Ok (mkFile FILE_DRIVER_CARD None (Some c) None)) /\
  (exists ts e, well_framed ts /\ complete company_fids ts /\
     unmarshal_file no_charmap (concat (map enc ts)) = Err e) /\
  (forall cm ts f, well_framed ts -> complete company_fids ts ->
     unmarshal_file cm (concat (map enc ts)) = Ok f -> file_type f = FILE_DRIVER_CARD).
Proof.
  split; [|split].
  - destruct (company_framed company_dump) as [W C]; [left; reflexivity|].
    destruct (driver_result no_charmap (concat (map enc company_dump))) as (c & E).
    + apply bytes_okb_ok. vm_compute. reflexivity.
    + vm_compute. reflexivity.
    + exists company_dump, c. split; [exact W|]. split; [exact C|exact E].
  - exists company_dump', EOther. destruct (company_framed company_dump') as [W C]; [right; reflexivity|].
    split; [exact W|]. split; [exact C|]. vm_compute. reflexivity.
  - intros cm ts f [F (t & ts' & E & T)] C U. change (concat (map enc ts)) with (encs ts) in U.
    rewrite (card_file cm ts t ts' E F T) in U.
    destruct (Z.eqb_spec (infer_file_type (map expected ts)) DRIVER_CARD) as [I|I].
    + apply bind_ok in U as (c & _ & U). apply Ok_inj in U. now subst f.
    + exfalso. apply I. apply infer_driver. split.
      * destruct (proj1 (C 0x0002)) as (u & J & O & _); [now left|]. eauto.
      * unfold driver_tlvs. rewrite Forall_forall. intros u J O.
        assert (K : In (t_fid u) company_fids) by (apply C; eauto).
        assert (X : forallb (fun f => existsb (Z.eqb f) driver_fids) company_fids = true) by reflexivity.
        rewrite forallb_forall in X. apply existsb_eqb. auto.
Qed.
Print Assumptions C09_card_types_refuted.

Example C09_example : let ts := map (fun f => mkTlv f 0 [1; 2]) control_fids in well_framed ts /\ complete control_fids ts.
Proof.
  split; [split|].
  - apply tlv_okb_ok. vm_compute. reflexivity.
  - eexists. eexists. split; reflexivity.
  - apply complete_b_ok. vm_compute. reflexivity.
Qed.
