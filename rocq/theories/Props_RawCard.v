(** C03, C04, C07, C08, C09: framing of card files and card type inference. *)

From Coq Require Import Permutation.
From Verif Require Import Base Chunks Scanner P_Scanner RawTypes RawCard P_RawCard Infer.

(** * C03: framing recovers exactly the records *)

(** [tlv], [enc] and [expected] (P_RawCard) describe records and their encoding
    without reference to the parser. *)
Theorem C03_card_framing :
  (forall ts, Forall (fun t => tlv_ok t /\ t_len t <= 65530) ts ->
     unmarshal_raw_card_file (concat (map enc ts)) = Ok (map expected ts)) /\
  (* and nothing else is accepted *)
  (forall d rs, bytes_ok d -> unmarshal_raw_card_file d = Ok rs ->
     exists ts, Forall (fun t => tlv_ok t /\ t_len t <= 65530) ts /\
       d = concat (map enc ts) /\ rs = map expected ts) /\
  (* the splitting does not depend on the buffer: it is what remains if the
     buffer is replaced by the whole remaining input *)
  (forall d, let r := scan scan_card_file d in
     (map tok_bytes (fst (fst r)), snd (fst r)) = ideal (S (length d)) scan_card_file d).
Proof.
  split; [|split].
  - intros ts F. rewrite <- (app_nil_r (concat _)). apply (raw_card_ok ts []); auto.
    left. simpl. lia.
  - intros d rs B U. apply raw_card_inv; auto.
  - intros d. apply scan_spec. apply scan_card_stable.
Qed.
Print Assumptions C03_card_framing.

(** Distinct sequences of records have distinct encodings. *)
Theorem C03_card_framing_injective :
  forall ts us, Forall (fun t => tlv_ok t /\ t_len t <= 65530) ts ->
  Forall (fun t => tlv_ok t /\ t_len t <= 65530) us ->
  concat (map enc ts) = concat (map enc us) -> ts = us.
Proof.
  intros ts us F G E. pose proof (proj1 C03_card_framing ts F) as A.
  rewrite E, (proj1 C03_card_framing us G) in A. apply Ok_inj in A. clear E.
  revert us G A. induction F as [|t ts [T L] F IH]; intros us G A; destruct us as [|u us];
    try discriminate; auto. inversion G as [|? ? [U M] G' e]; subst.
  cbn [map] in A. injection A as A1 _ _ _ _ A2 A3. f_equal; [|apply IH; auto].
  destruct t as [f a v], u as [f' a' v']. unfold tlv_ok, byte_ok in T, U. cbn [t_fid t_app t_val] in *.
  subst v'. f_equal; lia.
Qed.
Print Assumptions C03_card_framing_injective.

Example C03_example :
  unmarshal_raw_card_file
    ([0x00; 0x02; 0x00; 0x00; 0x01; 0xAA] ++ [0x05; 0x06; 0x03; 0x00; 0x00] ++
     [0xC1; 0x00; 0x02; 0x00; 0x02; 0x01; 0x02]) =
  Ok [mkRR 0x000200 EF_ICC 1 1 1 [0xAA]; mkRR 0x050603 EF_PLACES 2 2 0 [];
      mkRR 0xC10002 EF_CARD_CERTIFICATE 2 1 2 [1; 2]] /\
  tlv_ok (mkTlv 0x0506 0x03 []) /\
  enc (mkTlv 0x0506 0x03 []) = [0x05; 0x06; 0x03; 0x00; 0x00].
Proof.
  split; [vm_compute; reflexivity|]. split; [|reflexivity].
  unfold tlv_ok, byte_ok. cbn. repeat split; try lia. constructor.
Qed.

(** * C04: truncated downloads *)

Lemma firstn_app_le {A} n (x y : list A) : (n <= length x)%nat -> firstn n (x ++ y) = firstn n x.
Proof.
  intros. rewrite firstn_app. replace (n - length x)%nat with 0%nat by lia.
  rewrite firstn_O. apply app_nil_r.
Qed.

Lemma prefix_boundary ts d x :
  Forall (fun t => tlv_ok t /\ t_len t <= 65530) ts ->
  d ++ x = encs ts ->
  (exists k, d = encs (firstn k ts)) \/
  (exists k t p q, d = encs (firstn k ts) ++ p /\ In t ts /\ enc t = p ++ q /\ p <> [] /\ q <> []).
Proof.
  intros F. revert d. induction F as [|t ts [T L] F IH]; intros d E.
  - left. exists 0%nat. apply app_eq_nil in E as [-> _]. reflexivity.
  - unfold encs in *. cbn [map concat] in E.
    destruct (Nat.le_gt_cases (length (enc t)) (length d)) as [H|H].
    + assert (D : d = enc t ++ skipn (length (enc t)) d).
      { rewrite <- (firstn_skipn (length (enc t)) d) at 1. f_equal.
        rewrite <- (firstn_app_le _ d x), E, firstn_app_le, firstn_all by auto. reflexivity. }
      destruct (IH (skipn (length (enc t)) d)) as [(k & K)|(k & u & p & q & K & I & Q)].
      * rewrite D in E. rewrite <- app_assoc in E. now apply app_inv_head in E.
      * left. exists (S k). cbn [firstn map concat]. rewrite <- K. auto.
      * right. exists (S k), u, p, q. cbn [firstn map concat].
        rewrite <- app_assoc, <- K. split; [auto|]. split; [now right|]. auto.
    + destruct d as [|b d']; [left; exists 0%nat; reflexivity|]. set (d := b :: d') in *.
      right. exists 0%nat, t, d, (skipn (length d) (enc t)).
      split; [reflexivity|]. split; [now left|].
      assert (D : d = firstn (length d) (enc t)).
      { rewrite <- (firstn_app_le _ (enc t) (concat (map enc ts))) by lia. rewrite <- E.
        rewrite firstn_app_le, firstn_all by lia. reflexivity. }
      split; [rewrite D at 1; now rewrite firstn_skipn|]. split; [discriminate|].
      intros Q. apply (f_equal (@length _)) in Q. rewrite skipn_length in Q.
      change (length (@nil Z)) with 0%nat in Q. lia.
Qed.

Theorem C04_truncated_card_rejected :
  forall ts d x, Forall (fun t => tlv_ok t /\ t_len t <= 65530) ts ->
  d ++ x = concat (map enc ts) ->
  (forall k, d <> concat (map enc (firstn k ts))) ->
  unmarshal_raw_card_file d = Err EEOF.
Proof.
  intros ts d x F E N.
  destruct (prefix_boundary ts d x F E) as [(k & K)|(k & t & p & q & K & I & Q & P0 & Q0)].
  - now apply N in K.
  - rewrite Forall_forall in F. destruct (F t I) as [T L].
    assert (LP : (length p < length (enc t))%nat).
    { rewrite Q, app_length. destruct q; [congruence|]. simpl. lia. }
    subst d. rewrite raw_card_ok.
    + destruct p as [|b p]; [congruence|]. unfold outcome.
      pose proof max_eq. pose proof (enc_length t). unfold t_len in L.
      destruct (Nat.ltb_spec (length (b :: p)) max_token_size); [reflexivity|]. lia.
    + apply Forall_forall. intros u U. apply F. rewrite <- (firstn_skipn k ts).
      apply in_or_app. now left.
    + unfold stuck. destruct (Nat.lt_ge_cases (length p) 5) as [H|H]; [now left|]. right. left.
      assert (S : sub p 3 2 = sub (p ++ q) 3 2).
      { unfold sub. rewrite skipn_app. replace (3 - length p)%nat with 0%nat by lia.
        rewrite skipn_O, firstn_app_le; auto. rewrite skipn_length. lia. }
      rewrite S, <- Q, <- (app_nil_r (enc t)), enc_len_field by auto.
      rewrite enc_length in LP. unfold t_len. lia.
Qed.
Print Assumptions C04_truncated_card_rejected.

Example C04_example :
  [0x00; 0x02; 0x00; 0x00; 0x03; 0xAA; 0xBB] ++ [0xCC] =
    concat (map enc [mkTlv 0x0002 0 [0xAA; 0xBB; 0xCC]]) /\
  (forall k, [0x00; 0x02; 0x00; 0x00; 0x03; 0xAA; 0xBB] <>
     concat (map enc (firstn k [mkTlv 0x0002 0 [0xAA; 0xBB; 0xCC]]))) /\
  unmarshal_raw_card_file [0x00; 0x02; 0x00; 0x00; 0x03; 0xAA; 0xBB] = Err EEOF.
Proof.
  split; [reflexivity|]. split; [|vm_compute; reflexivity].
  intros [|[|k]]; discriminate.
Qed.

(** * C07: which record lengths are accepted (framing level) *)

Theorem C07_record_lengths_partial :
  forall t, tlv_ok t ->
  (t_len t <= 65530 -> unmarshal_raw_card_file (enc t) = Ok [expected t]) /\
  (t_len t = 65531 -> unmarshal_raw_card_file (enc t) = Panic) /\
  (65532 <= t_len t -> unmarshal_raw_card_file (enc t) = Err ETooLong).
Proof.
  intros t T. split; [|split]; intros L.
  - replace (enc t) with (encs [t] ++ []) by (unfold encs; cbn [map concat]; now rewrite !app_nil_r).
    apply (raw_card_ok [t] []); [constructor; auto|]. left. simpl. lia.
  - rewrite <- (app_nil_r (enc t)). apply (raw_card_panic [] t []); auto. constructor.
  - change (enc t) with (encs [] ++ enc t). rewrite (raw_card_ok [] (enc t)); auto.
    + unfold outcome. destruct (enc t) eqn:E; [discriminate|]. rewrite <- E.
      pose proof max_eq. pose proof (enc_length t). unfold t_len in L.
      destruct (Nat.ltb_spec (length (enc t)) max_token_size); [lia|reflexivity].
    + right. right. rewrite <- (app_nil_r (enc t)), enc_len_field; auto.
Qed.
Print Assumptions C07_record_lengths_partial.

(** Each of the five largest lengths is refused (or worse). *)
Theorem C07_record_lengths_refuted :
  forall n, 65531 <= n <= 65535 -> exists t, tlv_ok t /\ t_len t = n /\
  forall rs, unmarshal_raw_card_file (enc t) <> Ok rs.
Proof.
  intros n N. set (t := mkTlv 0x0002 0 (zeros (Z.to_nat n))).
  assert (L : t_len t = n) by (unfold t, t_len; cbn [t_val]; rewrite zeros_length; lia).
  assert (T : tlv_ok t).
  { unfold tlv_ok. rewrite L. unfold t, byte_ok. cbn [t_fid t_app t_val].
    repeat split; try lia. apply bytes_ok_zeros. }
  exists t. split; [auto|]. split; [auto|]. intros rs.
  destruct (C07_record_lengths_partial t T) as (_ & A & B). rewrite L in *.
  destruct (Z.eq_dec n 65531) as [E|E].
  - rewrite A by auto. discriminate.
  - rewrite B by lia. discriminate.
Qed.
Print Assumptions C07_record_lengths_refuted.

(** * C08: card type inference *)

(** The files each card type may contain, by ElementaryFileType number. *)
Definition permitted (card_type : Z) : list Z :=
  let common := [EF_ICC; EF_IC; EF_DIR; EF_ATR_INFO; EF_EXTENDED_LENGTH;
                 EF_APPLICATION_IDENTIFICATION; EF_IDENTIFICATION; EF_CARD_CERTIFICATE;
                 EF_CARD_SIGN_CERTIFICATE; EF_CA_CERTIFICATE; EF_LINK_CERTIFICATE;
                 EF_APPLICATION_IDENTIFICATION_V2; EF_VU_CONFIGURATION] in
  let recording := [EF_EVENTS_DATA; EF_FAULTS_DATA; EF_DRIVER_ACTIVITY_DATA; EF_VEHICLES_USED;
                    EF_PLACES; EF_CURRENT_USAGE; EF_CONTROL_ACTIVITY_DATA; EF_SPECIFIC_CONDITIONS;
                    EF_VEHICLE_UNITS_USED; EF_COMPANY_ACTIVITY_DATA; EF_GNSS_PLACES;
                    EF_PLACES_AUTHENTICATION; EF_GNSS_PLACES_AUTHENTICATION; EF_BORDER_CROSSINGS;
                    EF_LOAD_UNLOAD_OPERATIONS; EF_LOAD_TYPE_ENTRIES] in
  if card_type =? 1 then common ++ recording ++ [EF_CARD_DOWNLOAD_DRIVER; EF_DRIVING_LICENCE_INFO]
  else if card_type =? 2 then
    common ++ recording ++ [EF_CARD_DOWNLOAD_WORKSHOP; EF_CALIBRATION;
                            EF_SENSOR_INSTALLATION_DATA; EF_CALIBRATION_ADD_DATA]
  else if card_type =? 3 then common ++ [EF_CONTROLLER_ACTIVITY_DATA]
  else if card_type =? 4 then common ++ [EF_COMPANY_ACTIVITY_DATA]
  else if card_type =? 5 then
    [EF_ICC; EF_CARD_CERTIFICATE; EF_CA_CERTIFICATE; EF_LINK_CERTIFICATE; EF_EGF; EF_VU]
  else [].

Definition present (rs : list raw_record) (f : Z) : Prop :=
  exists r, In r rs /\ rr_content r = CONTENT_DATA /\ rr_file r = f.

Definition fits (rs : list raw_record) (t : Z) : Prop :=
  forall f, present rs f -> In f (permitted t).

Lemma file_tables_match :
  forallb (fun td => let a := all_elementary_files (snd td) in let b := permitted (fst td) in
     forallb (fun f => existsb (Z.eqb f) b) a && forallb (fun f => existsb (Z.eqb f) a) b)
    card_types = true.
Proof. reflexivity. Qed.

Lemma existsb_eqb f l : existsb (Z.eqb f) l = true <-> In f l.
Proof.
  rewrite existsb_exists. split.
  - intros (x & I & E). apply Z.eqb_eq in E. now subst.
  - intros I. exists f. split; auto. apply Z.eqb_refl.
Qed.

Lemma has_all_fits td rs : In td card_types ->
  has_all_elementary_files (snd td) rs = true <-> fits rs (fst td).
Proof.
  intros I. pose proof file_tables_match as M. rewrite forallb_forall in M. specialize (M td I).
  cbv zeta in M. apply andb_true_iff in M as [M1 M2]. rewrite forallb_forall in M1, M2.
  assert (EQ : forall f, In f (all_elementary_files (snd td)) <-> In f (permitted (fst td))).
  { intros f. split; intros J; [apply M1 in J|apply M2 in J]; now apply existsb_eqb in J. }
  unfold has_all_elementary_files. rewrite forallb_forall. split.
  - intros H f (r & J & C & <-). specialize (H r J). rewrite C, Z.eqb_refl in H. cbn [negb orb] in H.
    apply existsb_eqb in H. apply EQ. auto.
  - intros H r J. destruct (Z.eqb_spec (rr_content r) CONTENT_DATA) as [C|C]; auto. cbn [negb orb].
    apply existsb_eqb, EQ, H. exists r. auto.
Qed.

Theorem C08_inference_is_set_based :
  (* the result is the first type, in schema order, all files fit in *)
  (forall rs, 0 <= infer_file_type rs <= 5 /\
     ((forall t, 0 <= t <= 5 -> ~ fits rs t) /\ infer_file_type rs = 0 \/
      (fits rs (infer_file_type rs) /\ forall t, 0 <= t < infer_file_type rs -> ~ fits rs t))) /\
  (* only the set of files in data records matters *)
  (forall rs rs', (forall f, present rs f <-> present rs' f) ->
     infer_file_type rs = infer_file_type rs') /\
  (* in particular neither order nor repetition nor anything else in the records *)
  (forall rs rs', Permutation rs rs' -> infer_file_type rs = infer_file_type rs') /\
  (forall rs, infer_file_type (rs ++ rs) = infer_file_type rs) /\
  (forall rs g, (forall r, rr_content (g r) = rr_content r /\ rr_file (g r) = rr_file r) ->
     infer_file_type (map g rs) = infer_file_type rs).
Proof.
  assert (A : forall rs, 0 <= infer_file_type rs <= 5 /\
     ((forall t, 0 <= t <= 5 -> ~ fits rs t) /\ infer_file_type rs = 0 \/
      (fits rs (infer_file_type rs) /\ forall t, 0 <= t < infer_file_type rs -> ~ fits rs t))).
  { intros rs.
    pose proof (fun td I => has_all_fits td rs I) as H.
    unfold infer_file_type, card_types in *. cbn [In] in H. cbn [find].
    pose proof (H _ (or_introl eq_refl)) as H0.
    pose proof (H _ (or_intror (or_introl eq_refl))) as H1.
    pose proof (H _ (or_intror (or_intror (or_introl eq_refl)))) as H2.
    pose proof (H _ (or_intror (or_intror (or_intror (or_introl eq_refl))))) as H3.
    pose proof (H _ (or_intror (or_intror (or_intror (or_intror (or_introl eq_refl)))))) as H4.
    pose proof (H _ (or_intror (or_intror (or_intror (or_intror (or_intror (or_introl eq_refl))))))) as H5.
    clear H. cbn [fst snd] in *.
    change DRIVER_CARD with 1 in *. change WORKSHOP_CARD with 2 in *.
    change CONTROL_CARD with 3 in *. change COMPANY_CARD with 4 in *.
    change GNSS_SIMULATED_CARD with 5 in *. change CARD_TYPE_UNSPECIFIED with 0 in *.
    destruct (has_all_elementary_files (FD 0 0 []) rs).
    { split; [lia|]. right. split; [tauto|lia]. }
    assert (N0 : ~ fits rs 0) by (intros F; apply H0 in F; discriminate).
    destruct (has_all_elementary_files driver_card_files rs).
    { split; [lia|]. right. split; [tauto|]. intros t T. replace t with 0 by lia. auto. }
    assert (N1 : ~ fits rs 1) by (intros F; apply H1 in F; discriminate).
    destruct (has_all_elementary_files workshop_card_files rs).
    { split; [lia|]. right. split; [tauto|]. intros t T.
      destruct (Z.eq_dec t 0) as [->|]; auto. replace t with 1 by lia. auto. }
    assert (N2 : ~ fits rs 2) by (intros F; apply H2 in F; discriminate).
    destruct (has_all_elementary_files control_card_files rs).
    { split; [lia|]. right. split; [tauto|]. intros t T.
      destruct (Z.eq_dec t 0) as [->|]; auto. destruct (Z.eq_dec t 1) as [->|]; auto.
      replace t with 2 by lia. auto. }
    assert (N3 : ~ fits rs 3) by (intros F; apply H3 in F; discriminate).
    destruct (has_all_elementary_files company_card_files rs).
    { split; [lia|]. right. split; [tauto|]. intros t T.
      destruct (Z.eq_dec t 0) as [->|]; auto. destruct (Z.eq_dec t 1) as [->|]; auto.
      destruct (Z.eq_dec t 2) as [->|]; auto. replace t with 3 by lia. auto. }
    assert (N4 : ~ fits rs 4) by (intros F; apply H4 in F; discriminate).
    destruct (has_all_elementary_files gnss_simulated_card_files rs).
    { split; [lia|]. right. split; [tauto|]. intros t T.
      destruct (Z.eq_dec t 0) as [->|]; auto. destruct (Z.eq_dec t 1) as [->|]; auto.
      destruct (Z.eq_dec t 2) as [->|]; auto. destruct (Z.eq_dec t 3) as [->|]; auto.
      replace t with 4 by lia. auto. }
    assert (N5 : ~ fits rs 5) by (intros F; apply H5 in F; discriminate).
    split; [lia|]. left. split; auto. intros t T.
    destruct (Z.eq_dec t 0) as [->|]; auto. destruct (Z.eq_dec t 1) as [->|]; auto.
    destruct (Z.eq_dec t 2) as [->|]; auto. destruct (Z.eq_dec t 3) as [->|]; auto.
    destruct (Z.eq_dec t 4) as [->|]; auto. replace t with 5 by lia. auto. }
  assert (B : forall rs rs', (forall f, present rs f <-> present rs' f) ->
     infer_file_type rs = infer_file_type rs').
  { intros rs rs' E.
    assert (FI : forall t, fits rs t <-> fits rs' t).
    { intros t. unfold fits. split; intros H f P; apply H, E, P. }
    destruct (A rs) as [R [[N Q]|[F N]]], (A rs') as [R' [[N' Q']|[F' N']]].
    - congruence.
    - exfalso. apply (N _ R'). apply FI. auto.
    - exfalso. apply (N' _ R). apply FI. auto.
    - destruct (Z.lt_trichotomy (infer_file_type rs) (infer_file_type rs')) as [X|[X|X]]; auto.
      + exfalso. apply (N' (infer_file_type rs)); [lia|]. apply FI. auto.
      + exfalso. apply (N (infer_file_type rs')); [lia|]. apply FI. auto. }
  split; [exact A|]. split; [exact B|]. split; [|split].
  - intros rs rs' P. apply B. intros f. unfold present.
    split; intros (r & I & C); exists r; split; auto; revert I; apply Permutation_in; auto.
    now apply Permutation_sym.
  - intros rs. apply B. intros f. unfold present. split.
    + intros (r & I & C). exists r. split; auto. apply in_app_or in I. tauto.
    + intros (r & I & C). exists r. split; auto. apply in_or_app. now left.
  - intros rs g G. apply B. intros f. unfold present. split.
    + intros (r & I & C). apply in_map_iff in I as (r' & <- & I). exists r'. destruct (G r') as [G1 G2].
      rewrite <- G1, <- G2. auto.
    + intros (r & I & C). exists (g r). destruct (G r) as [G1 G2]. rewrite G1, G2. split; auto.
      now apply in_map.
Qed.
Print Assumptions C08_inference_is_set_based.

Example C08_example :
  let r f := mkRR 0 f 1 CONTENT_DATA 0 [] in
  infer_file_type [r EF_ICC; r EF_DRIVING_LICENCE_INFO] = 1 /\
  infer_file_type [r EF_CALIBRATION; r EF_ICC] = 2 /\
  infer_file_type [r EF_CONTROLLER_ACTIVITY_DATA] = 3 /\
  infer_file_type [r EF_ICC; r EF_EGF] = 5 /\
  infer_file_type [r EF_ICC; r 0] = 0 /\
  fits [r EF_ICC; r EF_EGF] 5.
Proof.
  cbv zeta. repeat split; try reflexivity.
  intros f (q & [<-|[<-|[]]] & _ & <-); cbn; tauto.
Qed.

(** No set of files is ever reported as a company card. *)
Theorem C08_company_never_inferred :
  forall rs, infer_file_type rs <> COMPANY_CARD.
Proof.
  intros rs E. destruct (proj1 C08_inference_is_set_based rs) as [_ [[_ Q]|[F N]]].
  - rewrite Q in E. discriminate.
  - rewrite E in *. apply (N 1); [unfold COMPANY_CARD; lia|].
    intros f P. specialize (F f P). clear P N. revert f F.
    apply Forall_forall. cbn.
    repeat (apply Forall_cons; [cbn; tauto|]). constructor.
Qed.
Print Assumptions C08_company_never_inferred.
