(** Writing driver cards: the bytes produced as a dump. *)

From Verif Require Import Base Enums Chunks DDScalar DDString P_String DDRecord RawTypes RawCard P_RawCard Infer Props_RawCard.
From Verif Require Import Field P_Scanner CardBasic P_Basic CardRecords P_Record P_Records.
From Verif Require Import CardIdent P_Ident CardActivity Props_Activity Cert P_Cert DriverCard P_Driver Vu Verify Api P_Dump Props_Dump Props_Driver.

(** ** Layout

    File identifier, appendix and whether a signature record follows. *)
Definition layout : list (Z * Z * bool) :=
  [(0x0002, 0, false); (0x0005, 0, false);
   (0x0501, 0, true); (0x0521, 0, true); (0x0520, 0, true); (0x0502, 0, true); (0x0503, 0, true);
   (0x0504, 0, true); (0x0505, 0, true); (0x0506, 0, true); (0x0507, 0, true); (0x0508, 0, true);
   (0x0522, 0, true); (0x050E, 0, false);
   (0x0501, 2, true); (0x0505, 2, true); (0x0506, 2, true); (0x0522, 2, true); (0x0523, 2, true);
   (0x0524, 2, true); (0x0525, 2, true);
   (0xC100, 0, false); (0xC108, 0, false);
   (0xC100, 2, false); (0xC101, 2, false); (0xC108, 2, false); (0xC109, 2, false)].

(** A unit as it is written: the signature is 128 zero bytes. *)
Definition written (e : Z * Z * bool) (v : bytes) : dumped :=
  match e with
  | (f, a, g) => mkDumped f a v (if g then Some (a + 1, zeros 128) else None)
  end.

(** A dump in the order of the layout. *)
Inductive laid_out : list dumped -> list (Z * Z * bool) -> Prop :=
  | laid_nil : laid_out [] []
  | laid_skip : forall us e l, laid_out us l -> laid_out us (e :: l)
  | laid_take : forall v us e l, laid_out us l -> laid_out (written e v :: us) (e :: l).

Definition shape_of (p : slot * style) : Z * Z * bool :=
  (file_id (slot_file (fst p)),
   match snd p with Signed | Unsigned | Certificate => 0 | SignedG2 | CertificateG2 => 2 end,
   match snd p with Signed | SignedG2 => true | _ => false end).

Lemma layout_order : map shape_of marshal_order = layout.
Proof. reflexivity. Qed.

Definition is_certificate (k : style) : bool := match k with Certificate | CertificateG2 => true | _ => false end.

Lemma tlv_bytes_enc f a v : Z.of_nat (length v) <= 65535 ->
  tlv_bytes f a v = enc (mkTlv (u16 (file_id f)) a v).
Proof.
  intros L. unfold tlv_bytes, enc, t_len. cbn [t_fid t_app t_val].
  assert (B : forall n, 0 <= n < 65536 -> to_be 2 n = [n / 256; n mod 256]).
  { intros n H. cbv [to_be List.app]. f_equal. lia. }
  rewrite !B by (unfold u16; lia). unfold u16 at 3 4. rewrite (Z.mod_small (Z.of_nat (length v))) by lia. reflexivity.
Qed.

Lemma file_id_u16 s : u16 (file_id (slot_file s)) = file_id (slot_file s).
Proof. destruct s; reflexivity. Qed.

Lemma dump_one u : dump [u] = concat (map enc (u_tlvs u)).
Proof. unfold dump. cbn [flat_map]. now rewrite app_nil_r. Qed.

Lemma dump_app us vs : dump (us ++ vs) = dump us ++ dump vs.
Proof. unfold dump. now rewrite flat_map_app, map_app, concat_app. Qed.

Lemma dump_cons u us : dump (u :: us) = dump [u] ++ dump us.
Proof. apply (dump_app [u] us). Qed.

Lemma write_tlv_dump s k v : Z.of_nat (length v) <= 65535 ->
  write_tlv k (slot_file s) v =
  if is_certificate k && (length v =? 0)%nat then [] else dump [written (shape_of (s, k)) v].
Proof.
  intros L. rewrite dump_one. unfold written, shape_of, u_tlvs, write_tlv. cbn [fst snd].
  assert (Lz : Z.of_nat (length (zeros 128)) <= 65535) by (rewrite zeros_length; lia).
  destruct k; cbn [is_certificate andb u_sig u_fid u_app u_val map concat]; rewrite ?app_nil_r;
    try destruct (length v =? 0)%nat; rewrite ?tlv_bytes_enc, ?file_id_u16 by auto; rewrite ?app_nil_r; reflexivity.
Qed.

(** The contents of a card's written fields are short enough for their length
    fields. *)
Definition short_fields (c : driver_card) : Prop :=
  forall s k x sg v, In (s, k) marshal_order -> slot_of_card c s = Some (x, sg) -> append_content s x = Ok v ->
    Z.of_nat (length v) <= 65535.

(** What the units of the output are. *)
Definition from_card (c : driver_card) (u : dumped) (p : slot * style) : Prop :=
  exists x sg, slot_of_card c (fst p) = Some (x, sg) /\ append_content (fst p) x = Ok (u_val u) /\
    u = written (shape_of p) (u_val u).

Lemma write_slot_cases c p out : In p marshal_order -> short_fields c -> write_slot c p = Ok out ->
  (out = [] /\ (slot_of_card c (fst p) = None \/
     is_certificate (snd p) = true /\ exists x sg, slot_of_card c (fst p) = Some (x, sg) /\ append_content (fst p) x = Ok [])) \/
  (exists u, out = dump [u] /\ from_card c u p /\ (is_certificate (snd p) = true -> u_val u <> [])).
Proof.
  intros I SH. unfold write_slot. destruct (slot_of_card c (fst p)) as [[x sg]|] eqn:E.
  - intros W. apply bind_ok in W as (v & A & W). apply Ok_inj in W. subst out.
    rewrite write_tlv_dump by (destruct p as [s k]; eapply SH; eauto).
    destruct (is_certificate (snd p)) eqn:K; cbn [andb].
    + destruct (Nat.eqb_spec (length v) 0) as [L|L].
      * left. split; auto. right. split; auto. destruct v; [|discriminate]. eauto.
      * right. exists (written (shape_of p) v). split; [now destruct p|].
        assert (V : u_val (written (shape_of p) v) = v) by reflexivity. rewrite V. split.
        -- exists x, sg. rewrite V. auto.
        -- intros _ ->. now destruct L.
    + right. exists (written (shape_of p) v). split; [now destruct p|].
      assert (V : u_val (written (shape_of p) v) = v) by reflexivity. split; [|discriminate].
      exists x, sg. rewrite V. auto.
  - intros W. apply Ok_inj in W. auto.
Qed.

Lemma marshal_laid_out c l out : incl l marshal_order -> short_fields c -> concat_res (write_slot c) l = Ok out ->
  exists us, out = dump us /\ laid_out us (map shape_of l) /\
    (forall u, In u us -> exists p, In p l /\ from_card c u p /\ (is_certificate (snd p) = true -> u_val u <> [])) /\
    (forall p x sg, In p l -> slot_of_card c (fst p) = Some (x, sg) ->
       (is_certificate (snd p) = true /\ append_content (fst p) x = Ok []) \/ exists u, In u us /\ from_card c u p) /\
    (forall s k us' p l', l = (s, k) :: l' -> p = (s, k) -> is_certificate k = false ->
       slot_of_card c s <> None -> us' = us -> exists u us2, us = u :: us2 /\ from_card c u p).
Proof.
  intros IN SH. revert out IN. induction l as [|p l IH]; intros out IN W; cbn [concat_res map] in *.
  - apply Ok_inj in W. subst. exists []. split; [reflexivity|]. split; [constructor|]. split; [intros u []|].
    split; [intros ? ? ? []|]. discriminate.
  - apply bind_ok in W as (a & Wp & W). apply bind_ok in W as (b & Wl & W). apply Ok_inj in W. subst out.
    destruct (IH b) as (us & -> & LO & H1 & H2 & _); auto.
    { intros q Q. apply IN. now right. }
    destruct (write_slot_cases c p a (IN p (or_introl eq_refl)) SH Wp) as [(-> & N)|(u & -> & FC & NE)].
    + exists us. split; [reflexivity|]. split; [now constructor|]. split; [|split].
      * intros u J. destruct (H1 u J) as (q & Q & R). exists q. split; [now right|auto].
      * intros q x sg [<-|Q] E; [|eauto]. left. destruct N as [N|(K & y & sy & E' & Ay)]; [congruence|].
        split; auto. rewrite E in E'. injection E' as <- <-. auto.
      * intros s k us' q l' E -> K NN ->. injection E as -> ->. destruct N as [N|(K' & _)]; [now destruct NN|].
        cbn [snd] in K'. congruence.
    + exists (u :: us). split; [symmetry; apply dump_cons|]. split; [|split; [|split]].
      * destruct FC as (x & sg & _ & _ & ->). now constructor.
      * intros w [<-|J]; [exists p; split; [now left|auto]|]. destruct (H1 w J) as (q & Q & R). exists q. split; [now right|auto].
      * intros q x sg [<-|Q] E; [right; exists u; split; [now left|auto]|].
        destruct (H2 q x sg Q E) as [R|(w & J & R)]; auto. right. exists w. split; [now right|auto].
      * intros s k us' q l' E -> K NN ->. injection E as -> ->. eauto.
Qed.

(** ** Fields of written units *)

Lemma shape_field p : In p marshal_order -> fst p <> S2_ma_cert -> forall v,
  u_field (written (shape_of p) v) = Some (fst p).
Proof.
  intros I N v. repeat destruct I as [<-|I]; try reflexivity; [now destruct N|destruct I].
Qed.

Lemma ma_field v k : u_field (written (shape_of (S2_ma_cert, k)) v) = None \/
  snd (fst (shape_of (S2_ma_cert, k))) = 0.
Proof. destruct k; auto. Qed.

Lemma written_field p v s : In p marshal_order -> u_field (written (shape_of p) v) = Some s -> fst p = s.
Proof.
  intros I F. destruct (slot_eq_dec (fst p) S2_ma_cert) as [E|E].
  - exfalso. repeat destruct I as [<-|I]; try discriminate. destruct I.
  - rewrite shape_field in F by auto. congruence.
Qed.

Lemma order_nodup : NoDup (map fst marshal_order).
Proof.
  apply (NoDup_count_occ' slot_eq_dec). intros s I. repeat destruct I as [<-|I]; try reflexivity. destruct I.
Qed.

Lemma laid_out_in us l u : laid_out us l -> In u us -> exists e v, In e l /\ u = written e v.
Proof.
  induction 1 as [|us e l L IH|v us e l L IH]; intros I.
  - destruct I.
  - destruct (IH I) as (e' & w & J & E). exists e', w. split; [now right|auto].
  - destruct I as [<-|I]; [exists e, v; split; [now left|auto]|].
    destruct (IH I) as (e' & w & J & E). exists e', w. split; [now right|auto].
Qed.

Lemma laid_out_fields us l u s : laid_out us (map shape_of l) -> incl l marshal_order -> In u us ->
  u_field u = Some s -> In s (map fst l).
Proof.
  intros L IN I F. destruct (laid_out_in us _ u L I) as (e & v & J & ->).
  apply in_map_iff in J as (p & <- & J). apply in_map_iff. exists p. split; auto.
  apply written_field in F; auto.
Qed.

(** A laid-out dump fills each field at most once. *)
Lemma laid_out_unique us l : laid_out us (map shape_of l) -> incl l marshal_order -> NoDup (map fst l) ->
  forall a u b s, us = a ++ u :: b -> u_field u = Some s -> none_for s a /\ none_for s b.
Proof.
  intros LO. remember (map shape_of l) as m eqn:M. revert l M.
  induction LO as [|us e m LO IH|v us e m LO IH]; intros l M IN ND a u b s E F.
  - destruct a; discriminate.
  - destruct l as [|p l]; [discriminate|]. cbn [map] in *. injection M as -> ->. inversion ND; subst.
    eapply (IH l); eauto. intros q Q. apply IN. now right.
  - destruct l as [|p l]; [discriminate|]. cbn [map] in *. injection M as -> ->. inversion ND as [|? ? N1 N2]; subst.
    assert (IN' : incl l marshal_order) by (intros q Q; apply IN; now right).
    assert (NF : forall w, In w us -> u_field w <> Some (fst p)).
    { intros w J Fw. apply N1. eapply laid_out_fields; eauto. }
    destruct a as [|a0 a].
    + injection E as E1 E2. subst u us. split; [constructor|].
      apply written_field in F; [|apply IN; now left]. subst s. unfold none_for. rewrite Forall_forall. auto.
    + cbn [List.app] in E. injection E as E1 E2. subst a0 us.
      destruct (IH l eq_refl IN' N2 a u b s eq_refl F) as [A B]. split; auto. constructor; auto.
      intros Fw. apply written_field in Fw; [|apply IN; now left]. subst s.
      apply (NF u); auto. apply in_app_iff. right. now left.
Qed.

(** ** Writing a card whose fields are those of a laid-out dump *)

Lemma marshal_of_laid_out c l : forall us, incl l marshal_order -> NoDup (map fst l) -> laid_out us (map shape_of l) ->
  Forall (fun u => u_field u <> None) us -> Forall (fun u => Z.of_nat (length (u_val u)) <= 65535) us ->
  (forall s, In s (map fst l) -> none_for s us -> slot_of_card c s = None) ->
  (forall s u, u_field u = Some s -> In u us -> exists x sg, slot_of_card c s = Some (x, sg) /\
     append_content s x = Ok (u_val u) /\ (forall k, In (s, k) l -> is_certificate k = true -> u_val u <> [])) ->
  concat_res (write_slot c) l = Ok (dump us).
Proof.
  intros us IN ND LO. remember (map shape_of l) as m eqn:M. revert l M IN ND.
  induction LO as [|us e m LO IH|v us e m LO IH]; intros l M IN ND FN FL H1 H2.
  - destruct l; [reflexivity|discriminate].
  - destruct l as [|p l]; [discriminate|]. cbn [map] in *. injection M as -> ->. inversion ND as [|? ? N1 N2]; subst.
    assert (IN' : incl l marshal_order) by (intros q Q; apply IN; now right).
    cbn [concat_res].
    assert (W : write_slot c p = Ok []).
    { unfold write_slot. rewrite H1; auto; [now left|]. unfold none_for. rewrite Forall_forall. intros u J F.
      apply N1. eapply laid_out_fields; eauto. }
    rewrite W. cbn [bind]. rewrite (IH l); auto.
    + intros s J. apply H1. now right.
    + intros s u F J. destruct (H2 s u F J) as (x & sg & E & A & K). exists x, sg. split; auto. split; auto.
      intros k Q. apply K. now right.
  - destruct l as [|p l]; [discriminate|]. cbn [map] in *. injection M as -> ->. inversion ND as [|? ? N1 N2]; subst.
    assert (IN' : incl l marshal_order) by (intros q Q; apply IN; now right).
    inversion FN as [|? ? FN1 FN2]; subst. inversion FL as [|? ? FL1 FL2]; subst.
    cbn [concat_res].
    assert (F : u_field (written (shape_of p) v) = Some (fst p)).
    { destruct (u_field (written (shape_of p) v)) as [s|] eqn:F; [|now destruct FN1].
      apply written_field in F; [now subst|apply IN; now left]. }
    destruct (H2 _ _ F (or_introl eq_refl)) as (x & sg & E & A & K).
    assert (V : u_val (written (shape_of p) v) = v) by reflexivity. rewrite V in *.
    assert (W : write_slot c p = Ok (dump [written (shape_of p) v])).
    { unfold write_slot. rewrite E, A. cbn [bind]. rewrite write_tlv_dump by auto.
      destruct p as [s k]. cbn [fst snd] in *. destruct (is_certificate k) eqn:CK; cbn [andb]; [|reflexivity].
      destruct (Nat.eqb_spec (length v) 0) as [L|L]; [|reflexivity].
      exfalso. apply (K k); auto; [now left|]. destruct v; [reflexivity|discriminate]. }
    rewrite W. cbn [bind]. rewrite (IH l); auto.
    + cbn [bind]. now rewrite (dump_cons _ us).
    + intros s J N. apply H1; [now right|]. constructor; auto. rewrite F. intros Q. injection Q as <-. contradiction.
    + intros s u Fu J. destruct (H2 s u Fu (or_intror J)) as (y & sy & E' & A' & K'). exists y, sy. split; auto. split; auto.
      intros k Q. apply K'. now right.
Qed.

(** ** Which values can be written *)

(** By the bytes of the file: nations must be known wherever a record with a date
    has one, GNSS odometers must not exceed 999999. *)
Definition writable (s : slot) (v : bytes) : Prop :=
  match s with
  | S_licence | S2_licence => nation_known (nth 36 v 0)
  | S_identification | S2_identification => nation_known (nth 0 v 0)
  | S_events | S2_events | S_faults | S2_faults =>
      Forall (fun r => be (sub r 1 4) = 0 \/ nation_known (nth 9 r 0)) (chunks 24 v)
  | S_vehicles => Forall (fun r => nation_known (nth 14 r 0)) (chunks 31 (skipn 2 v))
  | S2_vehicles => Forall (fun r => nation_known (nth 14 r 0)) (chunks 48 (skipn 2 v))
  | S_usage | S2_usage => nation_known (nth 4 v 0)
  | S_control | S2_control => be (sub v 1 4) = 0 \/ nation_known (nth 23 v 0)
  | S2_gnss => Forall (fun r => be (sub r 15 3) <= 999999) (chunks 18 (skipn 2 v))
  | _ => True
  end.

Lemma is_ok_w_cons f fs d i : is_ok (w_at (f :: fs) d i) = is_ok (f_w f (sub d i (f_len f))) && is_ok (w_at fs d (i + f_len f)).
Proof. cbn [w_at]. destruct (f_w f _); cbn [bind is_ok andb]; auto. destruct (w_at fs d _); reflexivity. Qed.

Lemma is_ok_w_nil d i : is_ok (w_at [] d i) = true.
Proof. reflexivity. Qed.

Lemma is_ok_w_id n d : is_ok (f_w (f_id n) d) = true.
Proof. reflexivity. Qed.

Lemma is_ok_nation d i : (i < length d)%nat -> is_ok (f_w f_nation (sub d i 1)) = true <-> nation_known (nth i d 0).
Proof.
  intros L. cbn [f_w f_nation]. rewrite nth_sub, Nat.add_0_r by lia. rewrite <- nation_knownb_iff.
  destruct (nation_knownb (nth i d 0)); split; auto.
Qed.

Lemma is_ok_vreg d i : (i + 15 <= length d)%nat -> is_ok (f_w f_vreg (sub d i 15)) = true <-> nation_known (nth i d 0).
Proof.
  intros L. unfold f_vreg. rewrite fseq_w, is_ok_w_cons, andb_true_iff. cbn [f_len f_nation].
  rewrite is_ok_nation by (rewrite sub_length; lia). rewrite nth_sub by lia. rewrite Nat.add_0_r.
  split; [tauto|]. intros H. split; auto.
Qed.

Lemma is_ok_concat {A} (f : A -> res bytes) l : is_ok (concat_res f l) = true <-> Forall (fun a => is_ok (f a) = true) l.
Proof.
  induction l as [|a l IH]; cbn [concat_res]; [split; auto|]. rewrite Forall_cons_iff, <- IH.
  destruct (f a); cbn [bind is_ok]; [|split; [discriminate|intros [H _]; discriminate]..].
  destruct (concat_res f l); cbn [bind is_ok]; split; auto; try (intros [_ H]; exact H); discriminate.
Qed.

Lemma is_ok_file_w h f d : is_ok (file_w h f d) = true <->
  Forall (fun r => is_ok (f_w f r) = true) (chunks (f_len f) (skipn h d)).
Proof.
  unfold file_w, body_w. rewrite <- is_ok_concat. destruct (concat_res _ _); cbn [bind is_ok]; split; auto.
Qed.

Lemma Forall_ext_in {A} (P Q : A -> Prop) l : (forall a, In a l -> (P a <-> Q a)) -> (Forall P l <-> Forall Q l).
Proof. intros H. rewrite !Forall_forall. split; intros X a I; apply H; auto. Qed.

Lemma chunk_length n d r : (0 < n)%nat -> In r (chunks n d) -> length r = n.
Proof. intros N I. pose proof (chunks_each n d N) as F. rewrite Forall_forall in F. auto. Qed.

Ltac ok_fields := rewrite !is_ok_w_cons, is_ok_w_nil; rewrite ?andb_true_iff;
  repeat match goal with
  | |- context [is_ok (f_w (f_id ?n) ?d)] => change (is_ok (f_w (f_id n) d)) with true
  | |- context [is_ok (f_w (f_string ?n) ?d)] => change (is_ok (f_w (f_string n) d)) with true
  | |- context [is_ok (f_w (f_enum ?n) ?d)] => change (is_ok (f_w (f_enum n) d)) with true
  | |- context [is_ok (f_w (f_if ?n ?c) ?d)] => change (is_ok (f_w (f_if n c) d)) with true
  | |- context [is_ok (f_w f_vin ?d)] => change (is_ok (f_w f_vin d)) with true
  | |- context [is_ok (f_w f_control ?d)] => change (is_ok (f_w f_control d)) with true
  | |- context [is_ok (f_w f_number ?d)] => change (is_ok (f_w f_number d)) with true
  | |- context [is_ok (f_w f_date ?d)] => change (is_ok (f_w f_date d)) with true
  end.

Lemma slot_writable s v : bytes_ok v -> slot_A s v = true -> (is_ok (slot_W s v) = true <-> writable s v).
Proof.
  intros B A.
  assert (EV : is_ok (file_w 0 f_event v) = true <->
            Forall (fun r => be (sub r 1 4) = 0 \/ nation_known (nth 9 r 0)) (chunks 24 v)).
  { rewrite is_ok_file_w. change (f_len f_event) with 24%nat. cbn [skipn]. apply Forall_ext_in. intros r I. apply chunk_length in I; [|lia].
    cbn [f_event f_w]. destruct (Z.eqb_spec (be (sub r 1 4)) 0) as [Ez|Ez]; [split; auto|].
    unfold event_fields. ok_fields. change (f_len f_vreg) with 15%nat. cbn [f_len f_enum f_if f_id Nat.add].
    rewrite is_ok_vreg by lia. tauto. }
  assert (ID : forall h n, is_ok (file_w h (f_id n) v) = true <-> True).
  { intros h n. rewrite is_ok_file_w. split; auto. intros _. rewrite Forall_forall. reflexivity. }
  assert (LI : (flen driving_licence_fields <=? length v)%nat && acc_at driving_licence_fields v 0 = true ->
            is_ok (w_at driving_licence_fields v 0) = true <-> nation_known (nth 36 v 0)).
  { intros H. apply andb_true_iff in H as [H _]. apply Nat.leb_le in H. change (flen driving_licence_fields) with 53%nat in H.
    unfold driving_licence_fields. ok_fields. cbn [f_len f_nation f_string f_fun f_id Nat.add].
    rewrite is_ok_nation by lia. tauto. }
  assert (IDN : (143 <=? length v)%nat = true -> is_ok (w_at ident_fields v 0) = true <-> nation_known (nth 0 v 0)).
  { intros H. apply Nat.leb_le in H. unfold ident_fields. ok_fields. cbn [f_len f_nation Nat.add].
    rewrite is_ok_nation by lia. tauto. }
  assert (US : (flen current_usage_fields <=? length v)%nat && acc_at current_usage_fields v 0 = true ->
            is_ok (w_at current_usage_fields v 0) = true <-> nation_known (nth 4 v 0)).
  { intros H. apply andb_true_iff in H as [H _]. apply Nat.leb_le in H. change (flen current_usage_fields) with 19%nat in H.
    unfold current_usage_fields. ok_fields. change (f_len f_vreg) with 15%nat. cbn [f_len f_id Nat.add].
    rewrite is_ok_vreg by lia. tauto. }
  assert (CT : (46 <=? length v)%nat = true ->
            is_ok (w_control v) = true <-> be (sub v 1 4) = 0 \/ nation_known (nth 23 v 0)).
  { intros H. apply Nat.leb_le in H. unfold w_control. destruct (Z.eqb_spec (be (sub v 1 4)) 0) as [Ez|Ez].
    { split; auto. }
    unfold control_fields. ok_fields. change (f_len f_vreg) with 15%nat. cbn [f_len f_id f_control f_fun Nat.add].
    rewrite is_ok_vreg by lia. tauto. }
  assert (VE : is_ok (file_w 2 (fseq vehicle_fields) v) = true <->
            Forall (fun r => nation_known (nth 14 r 0)) (chunks 31 (skipn 2 v))).
  { rewrite is_ok_file_w. change (f_len (fseq vehicle_fields)) with 31%nat. apply Forall_ext_in. intros r I.
    apply chunk_length in I; [|lia]. rewrite fseq_w. unfold vehicle_fields. ok_fields.
    change (f_len f_vreg) with 15%nat. cbn [f_len f_id Nat.add]. rewrite is_ok_vreg by lia. tauto. }
  assert (VG : is_ok (file_w 2 (fseq vehicle_g2_fields) v) = true <->
            Forall (fun r => nation_known (nth 14 r 0)) (chunks 48 (skipn 2 v))).
  { rewrite is_ok_file_w. change (f_len (fseq vehicle_g2_fields)) with 48%nat. apply Forall_ext_in. intros r I.
    apply chunk_length in I; [|lia]. rewrite fseq_w. unfold vehicle_g2_fields. ok_fields.
    change (f_len f_vreg) with 15%nat. cbn [f_len f_id Nat.add]. rewrite is_ok_vreg by lia. tauto. }
  assert (GN : is_ok (file_w 2 (fseq gnss_fields) v) = true <->
            Forall (fun r => be (sub r 15 3) <= 999999) (chunks 18 (skipn 2 v))).
  { rewrite is_ok_file_w. change (f_len (fseq gnss_fields)) with 18%nat. apply Forall_ext_in. intros r I.
    apply chunk_length in I; [|lia]. rewrite fseq_w. unfold gnss_fields. ok_fields.
    cbn [f_len f_id f_odo f_w Nat.add]. destruct (Z.leb_spec (be (sub r 15 3)) 999999); cbn [is_ok].
    - tauto.
    - split; [intros (_ & X & _); discriminate|lia]. }
  destruct s; cbn [slot_A slot_W writable] in *; auto; try (split; [reflexivity|reflexivity || auto]; fail).
Qed.
