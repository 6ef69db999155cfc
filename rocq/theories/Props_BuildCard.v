(** C89: whole driver cards built by a program survive writing and reading. *)

From Coq Require Import String.
From Verif Require Import Base Enums Chunks DDScalar DDString P_String DDRecord RawTypes RawCard P_RawCard Infer Props_RawCard.
From Verif Require Import Field P_Scanner CardBasic P_Basic CardRecords P_Record P_Records.
From Verif Require Import CardIdent P_Ident CardActivity Cert P_Cert DriverCard P_Driver Vu Verify Api P_Dump Props_Dump Props_Driver P_Write.
From Verif Require Import Utf8 Props_Scalar Props_String Props_Ident P_Build Props_Edit.
From Verif Require Import Props_Write Props_Build.
From Verif Require Props_Cert.
Local Open Scope list_scope.

(** ** What may be in the fields of a built card *)

(** Certificates are kept only as the bytes they were read from. *)
Definition rsa_ok (x : rsa_cert) : Prop := exists d, unmarshal_rsa d = Ok x.
Definition ecc_ok (x : ecc_cert) : Prop := exists d, unmarshal_ecc d = Ok x.

Definition slot_ok (cm : Z -> Z -> Z) (s : slot) : content s -> Prop :=
  match s return content s -> Prop with
  | S_icc => icc_ok
  | S_ic => ic_ok
  | S_app_id => app_id_ok
  | S2_app_id => app_id_g2_ok
  | S_licence | S2_licence => licence_ok cm
  | S_identification | S2_identification => identification_ok cm
  | S_events | S2_events | S_faults | S2_faults => events_ok cm
  | S_activity | S2_activity => activity_ok
  | S_vehicles => vehicles_ok cm
  | S2_vehicles => vehicles_g2_ok cm
  | S_places => places_ok
  | S2_places => places_g2_ok
  | S_usage | S2_usage => current_usage_ok cm
  | S_control | S2_control => control_ok cm
  | S_conditions => conditions_ok
  | S2_conditions => conditions_g2_ok
  | S_download | S2_download => writable_time
  | S2_units => units_used_ok
  | S2_gnss => gnss_places_ok
  | S2_app_v2 => app_id_v2_ok
  | S_card_cert | S_ca_cert => rsa_ok
  | S2_ma_cert | S2_sign_cert | S2_ca_cert | S2_link_cert => ecc_ok
  end.

(** A field without the remembered bytes and lengths. *)
Definition plain_content (s : slot) : content s -> content s :=
  match s return content s -> content s with
  | S_icc => plain_icc
  | S_ic => fun x => x
  | S_app_id => plain_app_id
  | S2_app_id => plain_app_id_g2
  | S_licence | S2_licence => plain_licence
  | S_identification | S2_identification => plain_identification
  | S_events | S2_events | S_faults | S2_faults => map plain_event
  | S_activity | S2_activity => plain_activity
  | S_vehicles => plain_vehicles
  | S2_vehicles => plain_vehicles_g2
  | S_places => plain_places
  | S2_places => plain_places_g2
  | S_usage | S2_usage => plain_current_usage
  | S_control | S2_control => plain_control
  | S_conditions => plain_conditions
  | S2_conditions => plain_conditions_g2
  | S_download | S2_download => fun x => x
  | S2_units => fun x => x
  | S2_gnss => fun x => x
  | S2_app_v2 => fun x => x
  | S_card_cert | S_ca_cert => fun x => x
  | S2_ma_cert | S2_sign_cert | S2_ca_cert | S2_link_cert => fun x => x
  end.

Lemma rsa_raw_read d x : unmarshal_rsa d = Ok x -> rsa_raw x = d.
Proof.
  unfold unmarshal_rsa. destruct (length d =? 194)%nat; cbn [guard bind]; [|discriminate].
  intros E. apply Ok_inj in E. now subst x.
Qed.

Lemma ecc_raw_read d x : unmarshal_ecc d = Ok x -> ecc_raw x = d.
Proof.
  unfold unmarshal_ecc. intros E.
  repeat (match type of E with
          | bind _ _ = Ok _ => apply bind_ok in E as (? & _ & E); cbv beta in E
          | (let '(_, _) := ?p in _) = Ok _ => destruct p
          end). apply Ok_inj in E. now subst x.
Qed.

Lemma slot_kept cm s (x : content s) : ascii_charmaps cm -> slot_ok cm s x ->
  exists v y, append_content s x = Ok v /\ unmarshal_content cm s v = Ok y /\ plain_content s y = plain_content s x.
Proof.
  intros C. destruct s; cbn [slot_ok append_content unmarshal_content plain_content content] in *; intros H;
    try (first [ exact (icc_kept x H) | exact (ic_kept x H) | exact (app_id_kept x H) | exact (app_id_g2_kept x H)
      | exact (licence_kept cm x C H) | exact (identification_kept cm x C H) | exact (events_kept cm x C H)
      | exact (activity_kept x H) | exact (vehicles_kept cm x C H) | exact (vehicles_g2_kept cm x C H)
      | exact (places_kept x H) | exact (places_g2_kept x H) | exact (current_usage_kept cm x C H)
      | exact (control_kept cm x C H) | exact (conditions_kept x H) | exact (conditions_g2_kept x H)
      | exact (download_kept x H) | exact (units_used_kept x H) | exact (gnss_places_kept x H)
      | exact (app_id_v2_kept x H) ]).
  all: destruct H as (d & E); exists d, x; first [rewrite (rsa_raw_read d x E) | rewrite (ecc_raw_read d x E)]; auto.
Qed.

(** The fields the writer writes, with what it makes of their signatures: reading
    them gives 128 zero bytes. *)
Definition signed_slots : list slot :=
  [S_app_id; S_licence; S_identification; S_events; S_faults; S_activity; S_vehicles; S_places; S_usage; S_control;
   S_conditions; S2_app_id; S2_vehicles; S2_places; S2_conditions; S2_units; S2_gnss; S2_app_v2].
Definition unsigned_slots : list slot :=
  [S_icc; S_ic; S_download; S_card_cert; S_ca_cert; S2_ma_cert; S2_sign_cert; S2_ca_cert; S2_link_cert].

Lemma slots_written s : In s (signed_slots ++ unsigned_slots) <-> In s (map fst marshal_order).
Proof. split; intros H; repeat destruct H as [<-|H]; try (destruct H; fail); cbn; intuition discriminate || auto 40. Qed.

Lemma slots_signed p : In p marshal_order -> (snd (shape_of p) = true <-> In (fst p) signed_slots).
Proof.
  intros I. repeat destruct I as [<-|I]; try (destruct I; fail); cbn; (split; [intros _; auto 40|reflexivity]) ||
    (split; [discriminate|intuition discriminate]).
Qed.

(** Each field to be written comes to bytes, at most 65530 of them. *)
Definition fits (c : driver_card) : Prop :=
  forall s x sg v, In s (signed_slots ++ unsigned_slots) -> slot_of_card c s = Some (x, sg) ->
    append_content s x = Ok v -> bytes_ok v /\ Z.of_nat (length v) <= 65530.

(** What a program has to see to. *)
Definition built (cm : Z -> Z -> Z) (c : driver_card) : Prop :=
  slot_of_card c S_icc <> None /\ slot_of_card c S2_ma_cert = None /\ fits c /\
  forall s x sg, In s (signed_slots ++ unsigned_slots) -> slot_of_card c s = Some (x, sg) -> slot_ok cm s x.

Lemma built_marshal cm c l : ascii_charmaps cm -> incl l marshal_order -> built cm c ->
  exists d, concat_res (write_slot c) l = Ok d.
Proof.
  intros C IN (_ & _ & _ & H). induction l as [|p l IH]; cbn [concat_res]; [eauto|].
  destruct IH as [d D]; [intros q Q; apply IN; now right|]. rewrite D.
  assert (J : In (fst p) (signed_slots ++ unsigned_slots)).
  { apply slots_written. apply in_map. apply IN. now left. }
  unfold write_slot. destruct (slot_of_card c (fst p)) as [[x sg]|] eqn:E; [|cbn [bind]; eauto].
  destruct (slot_kept cm (fst p) x C (H _ _ _ J E)) as (v & y & A & _). rewrite A. cbn [bind]. eauto.
Qed.

(** Missing: text outside ASCII, numbers of workshop cards ending in two digits,
    activity changes whose word is 0, activity files without days and the
    second-generation member state certificate (see the refutations below).

    A built card is written; what is written is read as a driver card; every field
    is in it with the same contents, and no other field is. *)
Theorem C89_built_card_partial : forall cm c, ascii_charmaps cm -> built cm c ->
  exists d c', marshal_file (Some (driver_file c)) = Ok d /\ unmarshal_file cm d = Ok (driver_file c') /\
    (forall s, In s (signed_slots ++ unsigned_slots) ->
       option_map (fun e => plain_content s (fst e)) (slot_of_card c' s) =
       option_map (fun e => plain_content s (fst e)) (slot_of_card c s)) /\
    (forall s y sg, slot_of_card c' s = Some (y, sg) ->
       (In s signed_slots /\ sg = Some (zeros 128)) \/ (In s unsigned_slots /\ sg = None)).
Proof.
  intros cm c A B. destruct (built_marshal cm c marshal_order A (incl_refl _) B) as [d M].
  destruct B as (IC & MA & FT & OK).
  assert (SH : short_fields c).
  { intros s k x sg v I E Q. assert (J : In s (signed_slots ++ unsigned_slots)).
    { apply slots_written. now apply (in_map fst) in I. }
    destruct (FT s x sg v J E Q). lia. }
  destruct (marshal_laid_out c marshal_order d (incl_refl _) SH M) as (us & -> & LO & H1 & H2 & H3).
  assert (K : forall u, In u us -> exists p x sg y, In p marshal_order /\ In (fst p) (signed_slots ++ unsigned_slots) /\
     slot_of_card c (fst p) = Some (x, sg) /\ u = written (shape_of p) (u_val u) /\ u_field u = Some (fst p) /\
     bytes_ok (u_val u) /\ Z.of_nat (length (u_val u)) <= 65530 /\
     unmarshal_content cm (fst p) (u_val u) = Ok y /\ plain_content (fst p) y = plain_content (fst p) x).
  { intros u I. destruct (H1 u I) as (p & J & (x & sg & E & Q & W) & _).
    assert (Jw : In (fst p) (signed_slots ++ unsigned_slots)) by (apply slots_written; now apply in_map).
    destruct (slot_kept cm (fst p) x A (OK _ _ _ Jw E)) as (v & y & Q' & U & P).
    rewrite Q in Q'. apply Ok_inj in Q'. rewrite <- Q' in U.
    destruct (FT _ _ _ _ Jw E Q) as [Bv Lv]. exists p, x, sg, y.
    split; auto. split; auto. split; auto. split; auto. split; auto.
    rewrite W. apply shape_field; auto. intros Em. destruct p as [s k]. cbn [fst] in *. subst s. congruence. }
  assert (V : Forall dumped_ok us).
  { rewrite Forall_forall. intros u I. destruct (K u I) as (p & x & sg & y & J & _ & _ & W & _ & Bv & Lv & _).
    rewrite W. unfold dumped_ok. assert (EV : u_val (written (shape_of p) (u_val u)) = u_val u) by reflexivity.
    rewrite EV.
    assert (T : forallb (fun e : Z * Z * bool => match e with (f, a, g) =>
        (0 <=? f) && (f <? 65536) && (0 <=? a) && (a <? 255) && negb (Z.odd a) && Z.odd (a + 1) end) layout = true) by reflexivity.
    rewrite forallb_forall in T. specialize (T (shape_of p)). rewrite <- layout_order in T.
    specialize (T (in_map _ _ _ J)). destruct (shape_of p) as [[f a] g] eqn:SP. cbn [written u_fid u_app u_sig u_val] in *.
    rewrite !andb_true_iff in T. destruct T as (((((T1 & T2) & T3) & T4) & T5) & T6).
    apply Z.leb_le in T1, T3. apply Z.ltb_lt in T2, T4. apply negb_true_iff in T5. unfold byte_ok.
    split; [lia|]. split; [lia|]. split; [auto|]. split; [auto|]. split; [auto|]. destruct g; auto.
    split; [lia|]. split; [auto|]. split; [apply zeros_bytes_ok|]. rewrite zeros_length. lia. }
  assert (D : Forall (fun u => In (u_fid u) driver_fids) us).
  { rewrite Forall_forall. intros u I. destruct (K u I) as (p & x & sg & y & J & _ & _ & W & _).
    rewrite W. assert (T : forallb (fun p => existsb (Z.eqb (fst (fst (shape_of p)))) driver_fids) marshal_order = true) by reflexivity.
    rewrite forallb_forall in T. specialize (T p J). apply existsb_eqb in T. unfold written. now destruct (shape_of p) as [[f a] g]. }
  assert (RS : forall u p, In p marshal_order -> u = written (shape_of p) (u_val u) ->
    u_signature u = if snd (shape_of p) then Some (zeros 128) else None).
  { intros u p J W. rewrite W. unfold written, u_signature. destruct (shape_of p) as [[f a] g]. now destruct g. }
  assert (G : exists os, Forall2 (gives cm) us os).
  { clear - K. induction us as [|u us IH]; [exists []; constructor|].
    destruct IH as [os G]; [intros v I; apply K; now right|].
    destruct (K u (or_introl eq_refl)) as (p & x & sg & y & J & _ & _ & W & F & _ & _ & U & _).
    exists (Some (Filed (fst p) (y, u_signature u)) :: os). constructor; auto. unfold gives. rewrite F. exists y.
    split; auto. split; auto. intros R. rewrite W. apply order_unsigned in R; auto.
    unfold written. destruct (shape_of p) as [[f a] g]. cbn [snd] in R. now subst g. }
  destruct G as [os G].
  destruct (H3 S_icc Unsigned us (S_icc, Unsigned) (tl marshal_order) eq_refl eq_refl eq_refl IC eq_refl) as (u0 & us2 & E0 & (x0 & sg0 & _ & _ & W0)).
  assert (ST : starts_with_icc us).
  { exists u0, us2. split; auto. rewrite W0. reflexivity. }
  assert (AC : accepted cm us (card_of os)) by (apply accepted_iff; auto; exists os; auto).
  exists (dump us), (card_of os). split; [exact M|]. split; [exact AC|]. split.
  - intros s Hs. apply slots_written in Hs. apply in_map_iff in Hs as (p & <- & J).
    destruct (slot_of_card c (fst p)) as [[x sg]|] eqn:E.
    + assert (Jw : In (fst p) (signed_slots ++ unsigned_slots)) by (apply slots_written; now apply in_map).
      destruct (H2 p x sg J E) as [[CK Q]|(u & I & x1 & sg1 & E1 & Q1 & W1)].
      { exfalso. destruct (slot_kept cm (fst p) x A (OK _ _ _ Jw E)) as (v & y & Q' & U & _).
        rewrite Q in Q'. apply Ok_inj in Q'. subst v.
        pose proof (slot_codec cm (fst p) [] (Forall_nil _)) as C. rewrite U in C. destruct C as [C _].
        now apply (certificate_nonempty p []). }
      destruct (K u I) as (q & x' & sg' & y & Jq & _ & E' & W & Fu & _ & _ & U & P).
      assert (Eq : fst p = fst q) by (apply (written_field p (u_val u)); auto; now rewrite <- W1).
      apply in_split in I as (a & b & Sp).
      destruct (laid_out_unique us marshal_order LO (incl_refl _) order_nodup a u b (fst q) Sp Fu) as [_ N].
      destruct (card_last cm us os (fst q) u a b G Sp Fu N) as (z & Uz & _ & Y).
      destruct p as [s k], q as [s' k']. cbn [fst] in *. subst s'. rewrite Y. cbn [option_map fst].
      rewrite U in Uz. apply Ok_inj in Uz. subst z. rewrite P. rewrite E in E'.
      apply (f_equal (fun o => match o with Some e => fst e | None => x end)) in E'. cbn [fst] in E'. now subst x'.
    + rewrite (card_none cm us os (fst p)); auto. unfold none_for. rewrite Forall_forall. intros u I Fu.
      destruct (K u I) as (q & x' & sg' & y & Jq & _ & E' & _ & Fu' & _).
      rewrite Fu in Fu'. destruct p as [s k], q as [s' k']. cbn [fst] in *. injection Fu' as <-. congruence.
  - intros s y sg E. destruct (card_some cm us os s (y, sg) G E) as (a & u & b & Sp & Fu & _ & _ & _ & Sg).
    assert (I : In u us) by (rewrite Sp; apply in_app_iff; right; now left).
    destruct (K u I) as (q & x' & sg' & z & Jq & Iq & _ & W & Fu' & _).
    rewrite Fu in Fu'. injection Fu' as ->. cbn [snd] in Sg. rewrite (RS u q Jq W) in Sg. subst sg.
    pose proof (slots_signed q Jq) as T. destruct (snd (shape_of q)).
    + left. split; auto. now apply T.
    + right. split; auto. apply in_app_iff in Iq as [Iq|Iq]; auto. apply T in Iq. discriminate.
Qed.
Print Assumptions C89_built_card_partial.

(** ** A card put together by hand *)

Definition ia5_text (n : nat) (s : bytes) : option ia5 := Some (mkIA5 None (Some (Z.of_nat n)) s).
Definition latin_text (n : nat) (s : bytes) : option string_value := Some (mkSV None 2 (Some (Z.of_nat n)) s).
Definition at_time (t : Z) : option timestamp := Some (mkTs t 0).

Definition hand_icc : icc :=
  mkIcc 4 (Some (mkES 123456 (Some (mkMY [] 7 2019)) 3 64)) (ia5_text 8 [101; 49; 45; 49; 50; 51]) 7
    (Some (mkEmb (ia5_text 2 [70; 82]) (ia5_text 2 [65; 66]) 9)) [1; 2].
(** MEIER, ANNA, born on 1980-02-29. *)
Definition hand_ident : identification :=
  mkIdent CARD_TYPE_DRIVER
    (Some (mkIC 15 (CN_driver (mkDN (ia5_text 14 [68; 49; 50; 51; 52; 53; 54; 55; 56]) (ia5_text 1 [48]) (ia5_text 1 [49])))
       (latin_text 35 [75; 66; 65]) (at_time 1577836800) (at_time 1577836800) (at_time 1735689600)))
    (Some (mkIH (latin_text 35 [77; 69; 73; 69; 82]) (latin_text 35 [65; 78; 78; 65])
       (Some (mkDate None 1980 2 29)) (ia5_text 2 [100; 101]))).
(** Driving from 08:00 and a break from 12:00; nothing on the next day but the card
    taken out at 00:01. *)
Definition hand_activity : activity :=
  mkAct 0 16 []
    [mkDay true [] 0 0 (at_time 1600000000) (Some (mkBcd 41 2)) 250 [mkAC None 2 false true 5 480; mkAC None 2 false true 2 720];
     mkDay true [] 0 0 (at_time 1600086400) (Some (mkBcd 42 2)) 0 [mkAC None 2 false false 2 1]].
Definition hand_places : places :=
  mkPlaces [] 0 [mkPlace [] (at_time 1600000000) 2 None 15 None [7] 123456].

Definition hand_card : driver_card :=
  set_slot (set_slot (set_slot (set_slot empty_card S_icc (hand_icc, None)) S_identification (hand_ident, None))
    S_activity (hand_activity, Some [1; 2; 3])) S_places (hand_places, None).

Lemma clean_ascii l : forallb (fun b => (32 <? b) && (b <? 127)) l = true -> clean_utf8 l.
Proof.
  intros H. exists l. rewrite forallb_forall in H. 
  assert (B : forall r, In r l -> 32 < r < 127).
  { intros r I. specialize (H r I). rewrite andb_true_iff, !Z.ltb_lt in H. lia. }
  assert (P : forall r, In r l -> ~ padding_rune r).
  { intros r I. specialize (B r I). unfold padding_rune. cbn. lia. }
  split; [rewrite Forall_forall; intros r I; specialize (B r I); lia|]. split; [|split].
  - clear P H. induction l as [|b l IH]; [reflexivity|]. cbn [map concat].
    rewrite <- IH by (intros r I; apply B; now right). unfold encode_rune. specialize (B b (or_introl eq_refl)).
    assert (Q : scalarb b = true) by (unfold scalarb; lia). rewrite Q. now destruct (Z.ltb_spec b 128); [|lia].
  - intros r rest ->. apply P. now left.
  - intros r front ->. apply P. apply in_app_iff. right. now left.
Qed.


Lemma text_by_hand cm n s : forallb (fun b => (32 <? b) && (b <? 127)) s = true -> (length s <= n)%nat ->
  text_ok cm n (latin_text n s).
Proof.
  intros H L. apply text_built; try lia.
  rewrite forallb_forall in H. assert (B : forall r, In r s -> 32 < r < 127).
  { intros r I. specialize (H r I). rewrite andb_true_iff, !Z.ltb_lt in H. lia. }
  split; [rewrite Forall_forall; intros r I; specialize (B r I); lia|].
  destruct s as [|b s]; [now left|]. right. split; [specialize (B b (or_introl eq_refl)); cbn [hd]; lia|].
  specialize (B (last (b :: s) 0)). destruct (exists_last (l := b :: s) ltac:(discriminate)) as (f & z & E). rewrite E in *.
  rewrite last_last in *. specialize (B ltac:(apply in_app_iff; right; now left)). lia.
Qed.

Lemma coded_by_hand T v : existsb (fun p => (fst p =? v) && match snd p with Some _ => true | None => false end) T = true ->
  coded T v.
Proof.
  intros H. apply existsb_exists in H as ((w & [c|]) & I & Q); cbn [fst snd] in Q; [|now rewrite andb_false_r in Q].
  exists c. rewrite andb_true_r in Q. apply Z.eqb_eq in Q. now subst w.
Qed.

Lemma hand_icc_ok : icc_ok hand_icc.
Proof.
  split; [exists 2; cbn; tauto|]. split; [|split; [|split; [|split]]].
  - eexists. split; [reflexivity|]. cbn [es_serial es_month_year es_type es_manufacturer]. split; [lia|].
    split; [|split; [exists 1; cbn; tauto|lia]]. eexists. split; [reflexivity|]. cbn. lia.
  - apply ia5_built; [now apply clean_ascii|cbn; lia].
  - cbn. lia.
  - eexists. split; [reflexivity|]. cbn [em_country em_module em_manufacturer].
    split; [|split; [|lia]]; (apply ia5_built; [now apply clean_ascii|cbn; lia]).
  - reflexivity.
Qed.

Lemma hand_ident_ok cm : identification_ok cm hand_ident.
Proof.
  split.
  - eexists. split; [reflexivity|]. cbn [id_nation id_number id_authority id_issue id_begin id_expiry hand_ident ident_type].
    split; [now apply coded_by_hand|]. split; [|split; [apply text_by_hand; [reflexivity|cbn; lia]|cbn; lia]].
    apply (number_driver _ 48 49).
    + eexists. split; [reflexivity|]. split; [reflexivity|]. split; [now apply clean_ascii|cbn; lia].
    + eexists. split; [reflexivity|]. split; [reflexivity|]. split; [reflexivity|lia].
    + eexists. split; [reflexivity|]. split; [reflexivity|]. split; [reflexivity|lia].
    + unfold is_digit; lia.
    + unfold is_digit; lia.
  - eexists. split; [reflexivity|]. cbn [ih_surname ih_first_names ih_birth ih_language].
    split; [apply text_by_hand; [reflexivity|cbn; lia]|]. split; [apply text_by_hand; [reflexivity|cbn; lia]|].
    split; [|apply ia5_built; [now apply clean_ascii|cbn; lia]].
    eexists. split; [reflexivity|]. cbn. intuition lia.
Qed.

Lemma hand_activity_ok : activity_ok hand_activity.
Proof.
  apply activity_built; try discriminate; try lia; try reflexivity; try (cbn; lia).
  assert (D : forall d, In d (act_days hand_activity) -> day_ok d).
  { intros d [<-|[<-|[]]]; unfold day_ok; cbn [day_valid day_raw day_date day_counter day_distance day_changes day_len].
    all: split; [reflexivity|]; split; [reflexivity|]; split; [cbn; lia|]; split; [eexists; split; [reflexivity|lia]|];
      split; [lia|]; split; [|split; [now left|cbn; lia]].
    all: repeat constructor; unfold change_ok; cbn; try lia; try discriminate; auto. }
  now rewrite Forall_forall.
Qed.

Lemma hand_places_ok : places_ok hand_places.
Proof.
  split; [cbn; lia|]. constructor; [|constructor]. unfold place_ok. cbn [pl_raw pl_time pl_entry pl_entry_unrecognized pl_country pl_country_unrecognized pl_region pl_odometer].
  split; [now left|]. split; [cbn; lia|]. split; [left; split; [now apply coded_by_hand|reflexivity]|].
  split; [left; split; [now apply coded_by_hand|reflexivity]|]. split; [eauto|lia].
Qed.

Definition identity_charmap : Z -> Z -> Z := fun _ b => b.

Lemma some_fst {X Y} (a b : X) (p q : Y) : Some (a, p) = Some (b, q) -> a = b.
Proof. intros E. now inversion E. Qed.

Lemma hand_cases s (x : content s) sg : slot_of_card hand_card s = Some (x, sg) ->
  (exists e : s = S_icc, x = eq_rect_r content (hand_icc : content S_icc) e) \/
  (exists e : s = S_identification, x = eq_rect_r content (hand_ident : content S_identification) e) \/
  (exists e : s = S_activity, x = eq_rect_r content (hand_activity : content S_activity) e) \/
  (exists e : s = S_places, x = eq_rect_r content (hand_places : content S_places) e).
Proof.
  intros E. destruct s; try discriminate E.
  - left. exists eq_refl. symmetry. exact (some_fst hand_icc x _ _ E).
  - right. left. exists eq_refl. symmetry. exact (some_fst hand_ident x _ _ E).
  - right. right. left. exists eq_refl. symmetry. exact (some_fst hand_activity x _ _ E).
  - right. right. right. exists eq_refl. symmetry. exact (some_fst hand_places x _ _ E).
Qed.

Lemma computed_fits (r : res bytes) v :
  match r with Ok b => bytes_okb b && (Z.of_nat (length b) <=? 65530) | _ => false end = true -> r = Ok v ->
  bytes_ok v /\ Z.of_nat (length v) <= 65530.
Proof.
  intros H ->. apply andb_true_iff in H as [B L]. split; [now apply bytes_okb_ok|now apply Z.leb_le].
Qed.

Example C89_example : ascii_charmaps identity_charmap /\ built identity_charmap hand_card.
Proof.
  split; [intros cp b _; reflexivity|].
  split; [discriminate|]. split; [reflexivity|]. split.
  - intros s x sg v I E A.
    destruct (hand_cases s x sg E) as [(-> & ->)|[(-> & ->)|[(-> & ->)|(-> & ->)]]]; clear E;
      (eapply computed_fits; [|exact A]); vm_compute; reflexivity.
  - intros s x sg I E. destruct (hand_cases s x sg E) as [(-> & ->)|[(-> & ->)|[(-> & ->)|(-> & ->)]]].
    + exact hand_icc_ok.
    + apply hand_ident_ok.
    + apply hand_activity_ok.
    + apply hand_places_ok.
Qed.

(** ** What does not come back *)

(** A card that is written and read again, after which something in a field is
    another. *)
Definition changed {X} (cm : Z -> Z -> Z) (c : driver_card) (s : slot) (part : content s -> X) : Prop :=
  exists d c' x sg y sg', marshal_file (Some (driver_file c)) = Ok d /\ unmarshal_file cm d = Ok (driver_file c') /\
    slot_of_card c s = Some (x, sg) /\ slot_of_card c' s = Some (y, sg') /\ part y <> part x.

Lemma changed_run cm c s (part : content s -> bytes) :
  match marshal_file (Some (driver_file c)) with
  | Ok d => bytes_okb d &&
      match unmarshal_file cm d with
      | Ok f => (file_type f =? FILE_DRIVER_CARD) &&
          match file_driver_card f, slot_of_card c s with
          | Some c', Some (x, _) =>
              match slot_of_card c' s with Some (y, _) => if list_eq_dec Z.eq_dec (part y) (part x) then false else true | None => false end
          | _, _ => false
          end
      | _ => false
      end
  | _ => false
  end = true -> changed cm c s part.
Proof.
  intros H. destruct (marshal_file (Some (driver_file c))) as [d| |] eqn:M; try discriminate.
  apply andb_true_iff in H as [B H]. apply bytes_okb_ok in B.
  assert (R : match unmarshal_file cm d with Ok f => file_type f =? FILE_DRIVER_CARD | _ => false end = true).
  { destruct (unmarshal_file cm d); try discriminate. now apply andb_true_iff in H as [H _]. }
  destruct (driver_result cm d B R) as [c' U]. rewrite U in H. apply andb_true_iff in H as [_ H]. cbn [file_driver_card] in H.
  destruct (slot_of_card c s) as [[x sg]|] eqn:E; [|discriminate].
  destruct (slot_of_card c' s) as [[y sg']|] eqn:E'; [|discriminate].
  destruct (list_eq_dec Z.eq_dec (part y) (part x)); [discriminate|].
  exists d, c', x, sg, y, sg'. auto 10.
Qed.

Definition with_field (s : slot) (x : content s) : driver_card := set_slot hand_card s (x, None).

Definition text_of (o : option string_value) : bytes := match o with Some s => sv_value s | None => [] end.
Definition surname_of (x : identification) : bytes :=
  match ident_holder_part x with Some h => text_of (ih_surname h) | None => [] end.

(** The surname MÜLLER (in UTF-8, as all text in a message) comes back as MÃ\x9cLLER:
    the writer does not convert text to the code page it names. *)
Definition mueller : bytes := [77; 195; 156; 76; 76; 69; 82].
Theorem C89_names_refuted : exists x, surname_of x = mueller /\
  changed identity_charmap (with_field S_identification x) S_identification surname_of.
Proof.
  exists (mkIdent CARD_TYPE_DRIVER (ident_card_part hand_ident)
    (Some (mkIH (latin_text 35 mueller) (latin_text 35 [65]) (Some (mkDate None 1980 2 29)) (ia5_text 2 [100; 101])))).
  split; [reflexivity|]. apply changed_run. vm_compute. reflexivity.
Qed.
Print Assumptions C89_names_refuted.

(** A workshop card whose number ends in two digits comes back as a driver card. *)
Theorem C89_workshop_refuted : exists x, ident_type x = CARD_TYPE_WORKSHOP /\
  changed identity_charmap (with_field S_identification x) S_identification (fun y => [ident_type y]).
Proof.
  exists (mkIdent CARD_TYPE_WORKSHOP
    (Some (mkIC 15 (CN_owner (mkOI (ia5_text 13 [87; 49; 50; 51; 52; 53; 54; 55; 56]) (ia5_text 1 [48]) (ia5_text 1 [48]) (ia5_text 1 [49])))
       (latin_text 35 [75; 66; 65]) (at_time 1577836800) (at_time 1577836800) (at_time 1735689600)))
    (ident_holder_part hand_ident)).
  split; [reflexivity|]. apply changed_run. vm_compute. reflexivity.
Qed.
Print Assumptions C89_workshop_refuted.

(** A rest from midnight is the word 0, which the reader takes for padding: the day
    comes back with one change instead of two. *)
Theorem C89_midnight_refuted : exists x, 
  act_days x = [mkDay true [] 0 0 (at_time 1600000000) (Some (mkBcd 41 2)) 250 [mkAC None 2 false true 2 0; mkAC None 2 false true 5 480]] /\
  changed identity_charmap (with_field S_activity x) S_activity (fun y => map (fun r => Z.of_nat (length (day_changes r))) (act_days y)).
Proof.
  eexists (mkAct 0 0 [] _). split; [reflexivity|]. apply changed_run. vm_compute. reflexivity.
Qed.
Print Assumptions C89_midnight_refuted.

(** An activity file without days, or a member state certificate of the second
    generation, makes the written card unreadable. *)
Definition unreadable (cm : Z -> Z -> Z) (c : driver_card) : Prop :=
  exists d e, marshal_file (Some (driver_file c)) = Ok d /\ unmarshal_file cm d = Err e.

Definition run_unreadable (c : driver_card) : bool :=
  match marshal_file (Some (driver_file c)) with
  | Ok d => match unmarshal_file identity_charmap d with Err _ => true | _ => false end
  | _ => false
  end.

Lemma ok_and {X} (r : res X) (p : X -> bool) : match r with Ok x => p x | _ => false end = true ->
  exists x, r = Ok x /\ p x = true.
Proof. destruct r; try discriminate. eauto. Qed.

Lemma unreadable_run c : run_unreadable c = true -> unreadable identity_charmap c.
Proof.
  unfold run_unreadable. set (cm := identity_charmap). clearbody cm.
  unfold unreadable. destruct (marshal_file (Some (driver_file c))) as [d| |]; try discriminate.
  destruct (unmarshal_file cm d) as [f|e|] eqn:U; try discriminate. eauto.
Qed.

Theorem C89_readable_refuted :
  unreadable identity_charmap (with_field S_activity (mkAct 0 0 [] [])) /\
  (exists x, ecc_ok x /\ unreadable identity_charmap (with_field S2_ma_cert x)).
Proof.
  split; [apply unreadable_run; vm_compute; reflexivity|].
  set (d := Props_Cert.sample_ecc [0; 0; 0; 0; 0; 0; 0; 42] [93; 0; 0; 0] [107; 0; 0; 0] (repeat 1 32) (repeat 2 32) (repeat 3 32) (repeat 4 32)).
  assert (K : match unmarshal_ecc d with Ok x => run_unreadable (with_field S2_ma_cert x) | _ => false end = true)
    by (vm_compute; reflexivity).
  apply ok_and in K as (x & U & K). exists x. split; [now exists d|]. apply unreadable_run. exact K.
Qed.
Print Assumptions C89_readable_refuted.
