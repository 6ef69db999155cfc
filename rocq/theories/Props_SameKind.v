(** C137: a file keeps its kind when it is written and read again. *)

From Verif Require Import Base Enums DDScalar RawTypes RawCard P_RawCard Infer Cert DriverCard P_Driver Vu Verify Api P_Dump Props_Dump Props_Driver.
From Verif Require Import Chunks P_Write P_WriteAll Props_Write Props_EditLocal.

Lemma high_byte f : In f driver_fids -> f / 256 <> 0x76.
Proof. intros I. repeat destruct I as [<-|I]; try (vm_compute; discriminate). destruct I. Qed.

Lemma driver_only cm us g : Forall dumped_ok us -> Forall (fun u => In (u_fid u) driver_fids) us ->
  unmarshal_file cm (dump us) = Ok g -> file_type g = FILE_DRIVER_CARD.
Proof.
  intros V D R. destruct us as [|u us]; [discriminate R|].
  assert (N : flat_map u_tlvs (u :: us) <> []) by discriminate.
  pose proof (dump_tlvs (u :: us) V) as TL. pose proof (proj2 (dump_driver (u :: us) V) D) as DT.
  destruct (enc_head _ N TL) as (t & ts' & E & H1 & H2 & H3).
  assert (T : t_fid t = u_fid u) by (cbn [flat_map u_tlvs List.app] in E; injection E as <- _; reflexivity).
  assert (I : infer_file_type (map expected (flat_map u_tlvs (u :: us))) = DRIVER_CARD).
  { apply infer_driver. split; [|exact DT]. exists (mkTlv (u_fid u) (u_app u) (u_val u)). split; [now left|].
    inversion V as [|? ? (_ & _ & O & _) _]; subst. exact O. }
  rewrite dump_encs in R. destruct (Z.eqb_spec (t_fid t) 2) as [Q|Q].
  - rewrite (card_file cm _ t ts' E TL Q), I in R. rewrite Z.eqb_refl in R. apply bind_ok in R as (c & _ & R). apply Ok_inj in R. now subst g.
  - exfalso. revert R. unfold unmarshal_file. destruct (Nat.ltb_spec (length (encs (flat_map u_tlvs (u :: us)))) 2); [lia|].
    rewrite H1, H2, T in *. inversion D as [|? ? D1 _]; subst. pose proof (high_byte _ D1) as HB.
    destruct (Z.eqb_spec (u_fid u / 256) 118); [contradiction|]. destruct (Z.eqb_spec (u_fid u) 2); [contradiction|]. discriminate.
Qed.

Lemma written_fids c us : (forall u, In u us -> exists p, In p marshal_order /\ from_card c u p /\ (is_certificate (snd p) = true -> u_val u <> [])) ->
  Forall (fun u => In (u_fid u) driver_fids) us.
Proof.
  intros H. rewrite Forall_forall. intros u I. destruct (H u I) as (p & J & (x & sg & _ & _ & W) & _). rewrite W.
  generalize (u_val u). intros v. clear - J.
  assert (B : existsb (Z.eqb (u_fid (written (shape_of p) v))) driver_fids = true) by (repeat destruct J as [<-|J]; try reflexivity; destruct J).
  apply existsb_exists in B as (f & I & Q). apply Z.eqb_eq in Q. now rewrite Q.
Qed.

(** Files that were read, and card messages put together by a program. *)
Theorem C137_kind_partial : forall cm f out g,
  (exists cm' d, bytes_ok d /\ unmarshal_file cm' d = Ok f) \/ (exists c, f = driver_file c /\ fields_fit c) ->
  marshal_file (Some f) = Ok out -> unmarshal_file cm out = Ok g -> file_type g = file_type f.
Proof.
  intros cm f out g H M R. destruct H as [(cm' & d & B & P)|(c & -> & SF)].
  - destruct (proj1 (C01_dispatch cm' d B) f P) as [(v & ->)|[(c & ->)|(rs & ->)]].
    + discriminate M.
    + destruct (proj1 (driver_parse cm' d _ B) (conj P eq_refl)) as (us & os & V & _ & _ & _ & G & Q). injection Q as ->.
      destruct (marshal_parsed cm' us os out V G M) as (vs & -> & _ & V' & D & _). exact (driver_only cm vs g V' D R).
    + rewrite (C02_raw_card_round_trip cm' d _ B P eq_refl) in M. apply Ok_inj in M. subst out.
      revert P R. unfold unmarshal_file. destruct (length d <? 2)%nat; [discriminate|].
      destruct (nth 0 d 0 =? 118). { intros P. apply bind_ok in P as (v & _ & P). discriminate P. }
      destruct (be (sub d 0 2) =? 2); [|discriminate]. destruct (unmarshal_raw_card_file d) as [rs'|?|]; cbn [bind]; try discriminate.
      destruct (infer_file_type rs' =? DRIVER_CARD).
      { intros P. apply bind_ok in P as (v & _ & P). discriminate P. }
      intros _ R. apply Ok_inj in R. now subst g.
  - destruct (written_dump c out SF M) as (us & -> & V & _ & H1 & _). exact (driver_only cm us g V (written_fids c us H1) R).
Qed.
Print Assumptions C137_kind_partial.

(** A message of raw records may be written as a driver card, and a card message with
    a certificate of 65536 bytes as a card of another kind. *)
Definition hidden_tlvs : list tlv :=
  [mkTlv 0x0002 0 (zeros 25); mkTlv 0xC100 0 []; mkTlv 0x050A 0 (zeros (Z.to_nat 30000)); mkTlv 0x050B 0 (zeros (Z.to_nat 35526))].
Definition hiding_card : driver_card :=
  set_slot (match unmarshal_content no_charmap S_icc (zeros 25) with Ok x => set_slot empty_card S_icc (x, None) | _ => empty_card end)
    S_card_cert (mkRsa [] [] None [] [] (encs (skipn 2 hidden_tlvs)) None, None).

Theorem C137_kind_refuted :
  (exists rs out g, marshal_file (Some (mkFile FILE_RAW_CARD None None (Some rs))) = Ok out /\
     unmarshal_file no_charmap out = Ok g /\ file_type g = FILE_DRIVER_CARD) /\
  (exists c out g, marshal_file (Some (driver_file c)) = Ok out /\ bytes_ok out /\
     unmarshal_file no_charmap out = Ok g /\ file_type g = FILE_RAW_CARD).
Proof.
  split.
  - exists (map expected [mkTlv 2 0 (zeros 25)]). eexists. eexists. split; [vm_compute; reflexivity|]. split; [vm_compute; reflexivity|reflexivity].
  - exists hiding_card, (encs hidden_tlvs), (mkFile FILE_RAW_CARD None None (Some (map expected hidden_tlvs))).
    assert (H : match marshal_file (Some (driver_file hiding_card)) with
      | Ok a => if list_eq_dec Z.eq_dec a (encs hidden_tlvs) then true else false | _ => false end = true) by (vm_cast_no_check (eq_refl true)).
    destruct (marshal_file (Some (driver_file hiding_card))) as [a|?|]; try discriminate H.
    destruct (list_eq_dec Z.eq_dec a (encs hidden_tlvs)) as [Q|Q]; [|discriminate H]. rewrite Q. split; [reflexivity|].
    assert (W : Forall (fun t => tlv_ok t /\ t_len t <= 65530) hidden_tlvs) by (apply tlv_okb_ok; vm_compute; reflexivity).
    split.
    + apply bytes_okb_ok. vm_cast_no_check (eq_refl true).
    + split; [|reflexivity]. apply (proj1 (C09_card_types_partial no_charmap hidden_tlvs (conj W (ex_intro _ _ (ex_intro _ _ (conj eq_refl eq_refl)))))).
      left. exists (mkTlv 0x050A 0 (zeros (Z.to_nat 30000))). split; [right; right; now left|]. split; [reflexivity|].
      cbn [t_fid]. intros I. repeat destruct I as [I|I]; try discriminate I. destruct I.
Qed.
Print Assumptions C137_kind_refuted.

(** A card message that is written and read again. *)
Example C137_example : exists c out d, fields_fit c /\ marshal_file (Some (driver_file c)) = Ok out /\
  unmarshal_file no_charmap out = Ok (driver_file d).
Proof. destruct C136_example as (c & c' & out & out' & d & d' & _ & H & _ & M & _ & _ & R & _). exists c, out, d. auto. Qed.
