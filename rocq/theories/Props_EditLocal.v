(** C136: editing one file of a card message. *)

From Verif Require Import Base Enums DDScalar RawTypes RawCard P_RawCard Cert DriverCard P_Driver Vu Verify Api P_Dump Props_Dump Props_Driver.
From Verif Require Import Chunks P_Write P_WriteAll Props_Write.

(** The two messages agree in all files but [t]. *)
Definition edited (t : slot) (c c' : driver_card) : Prop := forall s, s <> t -> slot_of_card c' s = slot_of_card c s.

(** The bytes are one or no record of the file: identifier and generation. *)
Definition of_file (p : slot * style) (w : bytes) : Prop :=
  w = [] \/ firstn 3 w = [file_id (slot_file (fst p)) / 256; file_id (slot_file (fst p)) mod 256;
                          match snd p with SignedG2 | CertificateG2 => 2 | _ => 0 end].

(** The written contents are bytes, and no more than a record of a card can have. *)
Definition fields_fit (c : driver_card) : Prop :=
  forall s k x sg v, In (s, k) marshal_order -> slot_of_card c s = Some (x, sg) -> append_content s x = Ok v ->
    bytes_ok v /\ Z.of_nat (length v) <= 65530.

Lemma fit_short c : fields_fit c -> short_fields c.
Proof. intros H s k x sg v J E A. destruct (H s k x sg v J E A). lia. Qed.

Lemma edited_slot t c c' p : edited t c c' -> fst p <> t -> write_slot c' p = write_slot c p.
Proof. intros E N. unfold write_slot. now rewrite (E _ N). Qed.

Lemma edited_rest t c c' l : edited t c c' -> ~ In t (map fst l) -> concat_res (write_slot c') l = concat_res (write_slot c) l.
Proof.
  intros E. induction l as [|p l IH]; intros N; [reflexivity|]. cbn [map In concat_res] in *.
  rewrite (edited_slot t c c' p E) by (intros Q; apply N; now left). rewrite IH by tauto. reflexivity.
Qed.

Lemma write_of_file c p w : In p marshal_order -> write_slot c p = Ok w -> of_file p w.
Proof.
  intros J. unfold write_slot, of_file. destruct (slot_of_card c (fst p)) as [[x sg]|].
  - intros W. apply bind_ok in W as (v & _ & W). apply Ok_inj in W. subst w.
    repeat destruct J as [<-|J]; try destruct J; cbn [fst snd write_tlv slot_file];
      repeat match goal with |- context [(?a =? ?b)%nat] => destruct (a =? b)%nat end; first [now left|right; reflexivity].
  - intros W. apply Ok_inj in W. now left.
Qed.

Lemma split_order t c c' l out out' : edited t c c' -> NoDup (map fst l) -> incl l marshal_order ->
  concat_res (write_slot c) l = Ok out -> concat_res (write_slot c') l = Ok out' ->
  out' = out \/ exists k pre w w' post, In (t, k) l /\ out = pre ++ w ++ post /\ out' = pre ++ w' ++ post /\
    of_file (t, k) w /\ of_file (t, k) w'.
Proof.
  intros E. revert out out'. induction l as [|p l IH]; intros out out' ND IN W W'; cbn [concat_res] in *.
  - apply Ok_inj in W, W'. left. congruence.
  - apply bind_ok in W as (a & Wp & W). apply bind_ok in W as (b & Wl & W). apply Ok_inj in W. subst out.
    apply bind_ok in W' as (a' & Wp' & W'). apply bind_ok in W' as (b' & Wl' & W'). apply Ok_inj in W'. subst out'.
    cbn [map] in ND. apply NoDup_cons_iff in ND as [N1 N2].
    destruct (slot_eq_dec (fst p) t) as [<-|N].
    + right. exists (snd p), [], a, a', b. split; [left; now destruct p|]. split; [reflexivity|].
      rewrite (edited_rest (fst p) c c' l E N1), Wl in Wl'. apply Ok_inj in Wl'. subst b'. split; [reflexivity|].
      destruct p as [s k]. split; eapply write_of_file; eauto; apply IN; now left.
    + rewrite (edited_slot t c c' p E N), Wp in Wp'. apply Ok_inj in Wp'. subst a'.
      destruct (IH b b' N2 (fun q Q => IN q (or_intror Q)) Wl Wl') as [->|(k & pre & w & w' & post & J & -> & -> & O)]; [now left|].
      right. exists k, (a ++ pre), w, w', post. split; [now right|]. rewrite <- !app_assoc. auto.
Qed.

Lemma split_fails t c c' l out : edited t c c' -> NoDup (map fst l) -> concat_res (write_slot c) l = Ok out ->
  is_ok (concat_res (write_slot c') l) = false ->
  exists k x sg, In (t, k) l /\ slot_of_card c' t = Some (x, sg) /\ is_ok (append_content t x) = false.
Proof.
  intros E. revert out. induction l as [|p l IH]; intros out ND W W'; cbn [concat_res] in *; [discriminate|].
  apply bind_ok in W as (a & Wp & W). apply bind_ok in W as (b & Wl & _).
  cbn [map] in ND. apply NoDup_cons_iff in ND as [N1 N2].
  destruct (slot_eq_dec (fst p) t) as [<-|N].
  - rewrite (edited_rest (fst p) c c' l E N1), Wl in W'. unfold write_slot in W'.
    destruct (slot_of_card c' (fst p)) as [[x sg]|] eqn:Q; [|discriminate]. exists (snd p), x, sg. split; [left; now destruct p|].
    split; [reflexivity|]. destruct (append_content (fst p) x); [discriminate|reflexivity|reflexivity].
  - rewrite (edited_slot t c c' p E N), Wp in W'. cbn [bind] in W'.
    destruct (IH b N2 Wl) as (k & x & sg & J & R).
    + destruct (concat_res (write_slot c') l); [discriminate|reflexivity|reflexivity].
    + exists k, x, sg. split; [now right|exact R].
Qed.

(** In the bytes: only the record of the edited file differs, and writing fails only
    if writing this file does. *)
Theorem C136_bytes : forall t c c' out, edited t c c' -> marshal_file (Some (driver_file c)) = Ok out ->
  (forall out', marshal_file (Some (driver_file c')) = Ok out' ->
     out' = out \/ exists k pre w w' post, In (t, k) marshal_order /\ out = pre ++ w ++ post /\ out' = pre ++ w' ++ post /\
       of_file (t, k) w /\ of_file (t, k) w') /\
  (is_ok (marshal_file (Some (driver_file c'))) = false ->
     exists x sg, slot_of_card c' t = Some (x, sg) /\ is_ok (append_content t x) = false).
Proof.
  intros t c c' out E M. rewrite marshal_driver_file in *. split.
  - intros out' M'. exact (split_order t c c' marshal_order out out' E order_nodup (incl_refl _) M M').
  - intros M'. destruct (split_fails t c c' marshal_order out E order_nodup M M') as (k & x & sg & _ & R). eauto.
Qed.
Print Assumptions C136_bytes.

(** ** Reading the edited card *)

Lemma written_dump c out : fields_fit c -> marshal_file (Some (driver_file c)) = Ok out ->
  exists us, out = dump us /\ Forall dumped_ok us /\ laid_out us (map shape_of marshal_order) /\
    (forall u, In u us -> exists p, In p marshal_order /\ from_card c u p /\ (is_certificate (snd p) = true -> u_val u <> [])) /\
    (forall p x sg, In p marshal_order -> slot_of_card c (fst p) = Some (x, sg) ->
       (is_certificate (snd p) = true /\ append_content (fst p) x = Ok []) \/ exists u, In u us /\ from_card c u p) /\
    (slot_of_card c S_icc <> None -> starts_with_icc us).
Proof.
  intros SF M. rewrite marshal_driver_file in M.
  destruct (marshal_laid_out c marshal_order out (incl_refl _) (fit_short c SF) M) as (us & -> & LO & H1 & H2 & H3).
  exists us. split; [reflexivity|]. split.
  - rewrite Forall_forall. intros u I. destruct (H1 u I) as ([s k] & J & (x & sg & X & A & W) & _). cbn [fst] in X, A.
    destruct (SF s k x sg (u_val u) J X A) as [B L]. rewrite W. clear - J B L.
    unfold dumped_ok, written, shape_of, byte_ok. cbn [fst snd]. generalize dependent (u_val u). intros v B L.
    repeat (destruct J as [J|J]; [injection J as <- <-|]); try (destruct J; fail); cbn [slot_file u_fid u_app u_val u_sig];
      (split; [vm_compute; split; [discriminate|reflexivity]|]); (split; [lia|]); (split; [reflexivity|]); (split; [exact B|]); (split; [exact L|]);
      try exact I; (split; [lia|]); (split; [reflexivity|]); (split; [apply bytes_ok_zeros|]); rewrite zeros_length; lia.
  - split; [exact LO|]. split; [exact H1|]. split; [exact H2|]. intros N.
    destruct (H3 S_icc Unsigned us (S_icc, Unsigned) (List.tl marshal_order) eq_refl eq_refl eq_refl N eq_refl) as (u & us2 & -> & (x & sg & _ & _ & W)).
    exists u, us2. split; [reflexivity|]. rewrite W. reflexivity.
Qed.

(** A record of another file stands in both dumps. *)
Lemma same_unit t c c' us us' u : edited t c c' ->
  (forall u, In u us -> exists p, In p marshal_order /\ from_card c u p /\ (is_certificate (snd p) = true -> u_val u <> [])) ->
  (forall p x sg, In p marshal_order -> slot_of_card c' (fst p) = Some (x, sg) ->
     (is_certificate (snd p) = true /\ append_content (fst p) x = Ok []) \/ exists u, In u us' /\ from_card c' u p) ->
  In u us -> (forall p, In p marshal_order -> from_card c u p -> fst p <> t) -> In u us'.
Proof.
  intros E H1 H2 I NT. destruct (H1 u I) as (p & J & FC & NE). pose proof (NT p J FC) as N.
  destruct FC as (x & sg & X & A & W). rewrite <- (E _ N) in X.
  destruct (H2 p x sg J X) as [[K A']|(u' & I' & (x' & sg' & X' & A' & W'))].
  - rewrite A in A'. apply Ok_inj in A'. destruct (NE K A').
  - rewrite X in X'. injection X' as <- <-. rewrite A in A'. apply Ok_inj in A'. rewrite <- A', <- W in W'. now subst u'.
Qed.

Lemma from_field c u p : In p marshal_order -> from_card c u p -> forall s, u_field u = Some s -> fst p = s.
Proof. intros J (x & sg & _ & _ & W) s Q. rewrite W in Q. now apply written_field in Q. Qed.

Lemma edited_sym t c c' : edited t c c' -> edited t c' c.
Proof. intros E s N. symmetry. now apply E. Qed.

Lemma slot_in cm us os s u : laid_out us (map shape_of marshal_order) -> Forall2 (gives cm) us os -> In u us -> u_field u = Some s ->
  exists x, unmarshal_content cm s (u_val u) = Ok x /\ slot_of_card (card_of os) s = Some (x, u_signature u).
Proof.
  intros LO G I Q. apply in_split in I as (a & b & D).
  destruct (laid_out_unique us marshal_order LO (incl_refl _) order_nodup a u b s D Q) as [_ N].
  destruct (card_last cm us os s u a b G D Q N) as (x & X & _ & Y). eauto.
Qed.

(** In the message that is read: all other files are as they were; and the edited
    card is read if the new content of the file is. *)
Theorem C136_read : forall cm t c c' out out' d, edited t c c' -> fields_fit c -> fields_fit c' ->
  marshal_file (Some (driver_file c)) = Ok out -> marshal_file (Some (driver_file c')) = Ok out' ->
  unmarshal_file cm out = Ok (driver_file d) ->
  (forall d', unmarshal_file cm out' = Ok (driver_file d') -> edited t d d') /\
  (t <> S2_ma_cert -> slot_of_card c' S_icc <> None ->
   (forall x sg v, slot_of_card c' t = Some (x, sg) -> append_content t x = Ok v -> exists y, unmarshal_content cm t v = Ok y) ->
   exists d', unmarshal_file cm out' = Ok (driver_file d')).
Proof.
  intros cm t c c' out out' d E SF SF' M M' R.
  destruct (written_dump c out SF M) as (us & -> & V & LO & H1 & H2 & IC).
  destruct (written_dump c' out' SF' M') as (us' & -> & V' & LO' & H1' & H2' & IC').
  apply (accepted_iff cm us d V) in R as (os & ST & ID & G & ->). split.
  - intros d' R'. apply (accepted_iff cm us' d' V') in R' as (os' & ST' & ID' & G' & ->). intros s N.
    destruct (none_for_dec s us) as [N0|(a & u & b & D & Q & _)], (none_for_dec s us') as [N1|(a' & u' & b' & D' & Q' & _)].
    + now rewrite (card_none cm us os s G N0), (card_none cm us' os' s G' N1).
    + exfalso. assert (I' : In u' us') by (rewrite D'; apply in_app_iff; right; now left).
      apply (same_unit t c' c us' us u' (edited_sym t c c' E) H1' H2) in I'.
      * unfold none_for in N0. rewrite Forall_forall in N0. exact (N0 u' I' Q').
      * intros p J FC. rewrite (from_field c' u' p J FC s Q'). exact N.
    + exfalso. assert (I0 : In u us) by (rewrite D; apply in_app_iff; right; now left).
      apply (same_unit t c c' us us' u E H1 H2') in I0.
      * unfold none_for in N1. rewrite Forall_forall in N1. exact (N1 u I0 Q).
      * intros p J FC. rewrite (from_field c u p J FC s Q). exact N.
    + assert (I0 : In u us) by (rewrite D; apply in_app_iff; right; now left).
      assert (I1 : In u us').
      { apply (same_unit t c c' us us' u E H1 H2' I0). intros p J FC. rewrite (from_field c u p J FC s Q). exact N. }
      destruct (slot_in cm us os s u LO G I0 Q) as (x & X & ->). destruct (slot_in cm us' os' s u LO' G' I1 Q) as (y & Y & ->). congruence.
  - intros NM NI RD.
    assert (P : forall u, In u us' -> In (u_fid u) driver_fids /\ exists o, gives cm u o).
    { intros u I. destruct (H1' u I) as (p & J & FC & NE). destruct (slot_eq_dec (fst p) t) as [T|T].
      - subst t. pose proof FC as (x & sg & X & A & W). destruct (RD x sg (u_val u) X A) as (y & Y).
        assert (Q : u_field u = Some (fst p)). { rewrite W. apply shape_field; [exact J|exact NM]. }
        split.
        + rewrite W. clear - J. generalize (u_val u). intros v. repeat destruct J as [<-|J]; try destruct J;
            (apply (proj2 (existsb_exists _ _) (ex_intro _ _ (conj (or_introl eq_refl) eq_refl))) || (cbn; tauto)).
        + exists (Some (Filed (fst p) (y, u_signature u))). unfold gives. rewrite Q. exists y. split; [exact Y|]. split; [|reflexivity].
          intros RS. rewrite W. pose proof (order_unsigned p J RS) as PU. unfold written.
          destruct (shape_of p) as [[f a] g]. cbn [snd] in PU. now subst g.
      - assert (I0 : In u us).
        { apply (same_unit t c' c us' us u (edited_sym t c c' E) H1' H2 I). intros q Jq FCq.
          destruct FC as (x & sg & X & A & W), FCq as (x' & sg' & X' & A' & W'). rewrite W' in W.
          assert (EQ : shape_of q = shape_of p).
          { unfold written in W. destruct (shape_of q) as [[f a] g], (shape_of p) as [[f' a'] g']. injection W as -> -> Wg.
            destruct g, g'; congruence. }
          assert (p = q) as <-; [|exact T]. clear - J Jq EQ.
          assert (ND : NoDup (map shape_of marshal_order)).
          { rewrite layout_order. apply (NoDup_count_occ' (fun x y : Z * Z * bool => ltac:(repeat decide equality))).
            intros x I. repeat destruct I as [<-|I]; try reflexivity. destruct I. }
          revert J Jq EQ ND. generalize marshal_order. intros l. induction l as [|a l IH]; intros J Jq EQ ND; [destruct J|].
          cbn [map] in ND. apply NoDup_cons_iff in ND as [N1 N2]. destruct J as [<-|J], Jq as [<-|Jq]; auto.
          - exfalso. apply N1. rewrite <- EQ. now apply in_map.
          - exfalso. apply N1. rewrite EQ. now apply in_map. }
        split; [rewrite Forall_forall in ID; now apply ID|]. exact (gives_in cm us os u G I0). }
    assert (G' : exists os', Forall2 (gives cm) us' os').
    { clear - P. induction us' as [|u us' IH]; [exists []; constructor|].
      destruct IH as (os' & G'); [intros w I; apply P; now right|]. destruct (P u (or_introl eq_refl)) as [_ (o & O)]. exists (o :: os'). now constructor. }
    destruct G' as (os' & G'). exists (card_of os'). apply (proj2 (accepted_iff cm us' (card_of os') V')). exists os'. split; [auto|]. split; [|auto].
    rewrite Forall_forall. intros u I. now apply P.
Qed.
Print Assumptions C136_read.

(** A card with a certificate, and the same card with another one; both can be written
    and read. *)
Definition card_with (n : Z) : driver_card :=
  set_slot (match unmarshal_content no_charmap S_icc (zeros 25) with Ok x => set_slot empty_card S_icc (x, None) | _ => empty_card end)
    S_card_cert (mkRsa [] [] None [] [] (repeat n 194) None, None).

Definition fits_b (c : driver_card) : bool := forallb (fun p => match slot_of_card c (fst p) with
  | Some (x, _) => match append_content (fst p) x with Ok v => bytes_okb v && (Z.of_nat (length v) <=? 65530) | _ => true end
  | None => true end) marshal_order.

Lemma fits_b_ok c : fits_b c = true -> fields_fit c.
Proof.
  unfold fits_b. rewrite forallb_forall. intros H s k x sg v J X A. specialize (H _ J). cbn [fst] in H. rewrite X, A in H.
  apply andb_true_iff in H as [B L]. apply bytes_okb_ok in B. apply Z.leb_le in L. auto.
Qed.

Example C136_example : exists c c' out out' d d', edited S_card_cert c c' /\ fields_fit c /\ fields_fit c' /\
  marshal_file (Some (driver_file c)) = Ok out /\ marshal_file (Some (driver_file c')) = Ok out' /\ out <> out' /\
  unmarshal_file no_charmap out = Ok (driver_file d) /\ unmarshal_file no_charmap out' = Ok (driver_file d') /\
  slot_of_card d S_icc <> None.
Proof.
  exists (card_with 1), (card_with 2).
  assert (H : forall n, n = 1 \/ n = 2 -> exists out d, marshal_file (Some (driver_file (card_with n))) = Ok out /\
    nth 40 out 0 = n /\ unmarshal_file no_charmap out = Ok (driver_file d) /\ slot_of_card d S_icc <> None).
  { intros n Hn.
    assert (B : (match marshal_file (Some (driver_file (card_with n))) with
      | Ok out => (nth 40 out 0 =? n) && match unmarshal_file no_charmap out with
          | Ok (mkFile ty None (Some d) None) => (ty =? FILE_DRIVER_CARD) && match slot_of_card d S_icc with Some _ => true | None => false end
          | _ => false end
      | _ => false end) = true) by (destruct Hn as [-> | ->]; vm_compute; reflexivity).
    destruct (marshal_file (Some (driver_file (card_with n)))) as [out|?|]; [|discriminate B|discriminate B]. exists out.
    apply andb_true_iff in B as [B1 B]. apply Z.eqb_eq in B1.
    destruct (unmarshal_file no_charmap out) as [[ty [?|] [d|] [?|]]|?|]; try discriminate B. exists d.
    apply andb_true_iff in B as [B2 B]. apply Z.eqb_eq in B2. subst ty. split; [reflexivity|]. split; [exact B1|]. split; [reflexivity|].
    destruct (slot_of_card d S_icc); [discriminate|discriminate B]. }
  destruct (H 1 (or_introl eq_refl)) as (out & d & M & N1 & R & X). destruct (H 2 (or_intror eq_refl)) as (out' & d' & M' & N2 & R' & _). clear H.
  exists out, out', d, d'. split; [|split; [|split; [|split; [exact M|split; [exact M'|split; [|auto]]]]]].
  - intros s N. unfold card_with. generalize (match unmarshal_content no_charmap S_icc (zeros 25) with Ok x => set_slot empty_card S_icc (x, None) | _ => empty_card end).
    intros c0. rewrite !slot_of_set. unfold entry_at. cbn [fl_slot fl_entry]. destruct (slot_eq_dec S_card_cert s) as [Q|Q]; [congruence|reflexivity].
  - apply fits_b_ok. vm_compute. reflexivity.
  - apply fits_b_ok. vm_compute. reflexivity.
  - intros ->. rewrite N1 in N2. discriminate N2.
Qed.
