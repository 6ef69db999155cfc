(** Property C82: which files of a driver card may be followed by a signature. *)

From Verif Require Import Base Enums Chunks DDScalar RawTypes RawCard P_RawCard Infer Props_RawCard.
From Verif Require Import CardBasic P_Records Cert P_Cert DriverCard P_Driver Vu Verify Api P_Dump Props_Dump Props_Driver.

(** The files a driver card is downloaded with and without a signature: ICC, IC,
    Card_Download and the certificates carry none. *)
Definition unsigned_fids : list Z := [0x0002; 0x0005; 0x050E; 0xC100; 0xC101; 0xC108; 0xC109].

Lemma rejects_iff f g s : field_of f g = Some s -> (rejects_signature s = true <-> In f unsigned_fids).
Proof.
  unfold field_of. destruct (find _ fields_table) as [[[f' s1] s2]|] eqn:E; [|discriminate].
  apply find_some in E as [I Q]. cbn [fst] in Q. apply Z.eqb_eq in Q. subst f'. intros H.
  rewrite <- existsb_eqb.
  repeat destruct I as [I|I]; try (injection I as <- <- <-; destruct g; try discriminate H; injection H as <-;
    cbn; split; intros C; reflexivity || discriminate C).
  destruct I.
Qed.

Lemma unsigned_filed f : In f unsigned_fids -> ~ In f ignored_fids.
Proof.
  intros I J. assert (T : forallb (fun f => negb (existsb (Z.eqb f) ignored_fids)) unsigned_fids = true) by reflexivity.
  rewrite forallb_forall in T. specialize (T f I). apply existsb_eqb in J. rewrite J in T. discriminate T.
Qed.

Theorem C82_signed_files : forall cm a u b i signature c,
  Forall dumped_ok (a ++ u :: b) -> accepted cm (a ++ u :: b) c ->
  byte_ok i -> Z.odd i = true -> bytes_ok signature -> Z.of_nat (length signature) <= 65530 ->
  (* an accepted card has no signature behind such a file *)
  (In (u_fid u) unsigned_fids -> u_sig u = None) /\
  (* and one put behind any file of it is an error exactly for such a file *)
  let v := mkDumped (u_fid u) (u_app u) (u_val u) (Some (i, signature)) in
  ((exists c', accepted cm (a ++ v :: b) c') <-> ~ In (u_fid u) unsigned_fids) /\
  (* in which case no file of any kind is returned *)
  (In (u_fid u) unsigned_fids -> forall f, unmarshal_file cm (dump (a ++ v :: b)) <> Ok f).
Proof.
  intros cm a u b i sg c V A Bi Oi Bs Ls. apply accepted_iff in A as (os & St & D & G & ->); auto.
  assert (U : In (u_fid u) unsigned_fids -> u_sig u = None).
  { intros I. apply Forall2_app_l in G as (p & q & -> & _ & Q). inversion Q as [|? o ? q' X _]; subst.
    unfold gives in X. destruct (u_field u) as [s|] eqn:F.
    - destruct X as (x & _ & R & _). apply R. now apply (rejects_iff _ _ _ F).
    - destruct X as [X _]. now apply unsigned_filed in X. }
  split; [exact U|]. intros v.
  assert (V' : Forall dumped_ok (a ++ v :: b)).
  { apply Forall_app in V as [V1 V2]. apply Forall_app. split; auto. inversion V2 as [|? ? W V3]; subst.
    constructor; auto. unfold dumped_ok in *. cbn. tauto. }
  assert (D' : Forall (fun u => In (u_fid u) driver_fids) (a ++ v :: b)).
  { apply Forall_app in D as [D1 D2]. apply Forall_app. split; auto. inversion D2; subst. constructor; auto. }
  assert (St' : starts_with_icc (a ++ v :: b)).
  { destruct St as (h & t & E & H). destruct a as [|h' a].
    - injection E as -> _. exists v, b. auto.
    - injection E as -> _. exists h. eexists. split; [reflexivity|auto]. }
  assert (X : (exists c', accepted cm (a ++ v :: b) c') <-> ~ In (u_fid u) unsigned_fids).
  { split.
    - intros (c' & A) I. apply accepted_iff in A as (os' & _ & _ & G' & _); auto.
      apply Forall2_app_l in G' as (p & q & -> & _ & Q). inversion Q as [|? o ? q' Y _]; subst.
      unfold gives in Y. destruct (u_field v) as [s|] eqn:F.
      + destruct Y as (x & _ & R & _). specialize (R (proj2 (rejects_iff _ _ _ F) I)). discriminate R.
      + destruct Y as [Y _]. now apply (unsigned_filed _ I).
    - intros N. apply Forall2_app_l in G as (p & q & -> & P & Q). inversion Q as [|? o ? q' Y Q']; subst.
      assert (Z : exists o', gives cm v o').
      { unfold gives in *. change (u_field v) with (u_field u). destruct (u_field u) as [s|] eqn:F; [|eauto].
        destruct Y as (x & E & _ & _). eexists. exists x. split; [exact E|]. split; [|reflexivity].
        intros R. apply (rejects_iff _ _ _ F) in R. contradiction. }
      destruct Z as (o' & Z). eexists. apply accepted_iff; auto. exists (p ++ o' :: q').
      split; [exact St'|]. split; [exact D'|]. split; [|reflexivity]. apply Forall2_app; auto. }
  split; [exact X|]. intros I f E.
  assert (C : exists c', f = mkFile FILE_DRIVER_CARD None (Some c') None).
  { set (us := a ++ v :: b) in *. destruct St' as (h & t & Eh & H).
    rewrite dump_encs in E. rewrite Eh in E. cbn [flat_map] in E.
    assert (K : u_tlvs h ++ flat_map u_tlvs t = mkTlv (u_fid h) (u_app h) (u_val h) :: skipn 1 (u_tlvs h) ++ flat_map u_tlvs t)
      by reflexivity.
    assert (T : Forall (fun t => tlv_ok t /\ small t) (u_tlvs h ++ flat_map u_tlvs t))
      by (change (u_tlvs h ++ flat_map u_tlvs t) with (flat_map u_tlvs (h :: t)); rewrite <- Eh; now apply dump_tlvs).
    rewrite (card_file cm _ _ _ K T H) in E.
    destruct (Z.eqb_spec (infer_file_type (map expected (u_tlvs h ++ flat_map u_tlvs t))) DRIVER_CARD) as [J|J].
    - apply bind_ok in E as (c' & _ & E). apply Ok_inj in E. eauto.
    - exfalso. apply J. apply infer_driver. split.
      + exists (mkTlv (u_fid h) (u_app h) (u_val h)). split; [now left|]. cbn [t_app].
        rewrite Eh in V'. inversion V' as [|? ? (_ & _ & O & _) _]; subst. exact O.
      + unfold driver_tlvs. change (u_tlvs h ++ flat_map u_tlvs t) with (flat_map u_tlvs (h :: t)).
        rewrite <- Eh. clear - D'. induction D' as [|w ws W D IH]; cbn [flat_map]; [constructor|].
        apply Forall_app. split; [|exact IH]. unfold u_tlvs. constructor; [intros _; exact W|].
        destruct (u_sig w) as [[? ?]|]; constructor; [intros _; exact W|constructor]. }
  destruct C as (c' & ->). apply (proj1 X); [|exact I]. exists c'. exact E.
Qed.
Print Assumptions C82_signed_files.

(** A card with a signed and an unsigned file; the signature is accepted behind the
    one only. *)
Example C82_signed_files_applies :
  let signed f := mkDumped f 0 (zeros (if f =? 0x0005 then 8 else 10)) (Some (1, [7])) in
  let unsigned f := mkDumped f 0 (zeros (if f =? 0x0005 then 8 else 10)) None in
  (Forall dumped_ok [icc_unit; unsigned 0x0005; signed 0x0501] /\
   exists c, accepted no_charmap [icc_unit; unsigned 0x0005; signed 0x0501] c) /\
  unmarshal_file no_charmap (dump [icc_unit; signed 0x0005; signed 0x0501]) = fail.
Proof. split; [apply driver_ok_accepted; vm_compute; reflexivity|vm_compute; reflexivity]. Qed.
