(** Property C124: what is missing in a message is not made up when it is written. *)

From Verif Require Import Base Enums DDScalar Utf8 DDString DDRecord Scanner CardRecords DriverCard Api P_Basic P_Anonymize.

(** Writing and then reading. *)
Definition again {A B} (w : res bytes) (r : bytes -> res A) (f : A -> B) : res B := let* b := w in let* x := r b in Ok (f x).

Lemma again_ok {A B} (w : res bytes) (r : bytes -> res A) (f : A -> B) (P : B -> Prop) :
  (forall b x, w = Ok b -> r b = Ok x -> P (f x)) -> forall y, again w r f = Ok y -> P y.
Proof. intros H y E. unfold again in E. apply bind_ok in E as (b & Eb & E). apply bind_ok in E as (x & Ex & E). apply Ok_inj in E. subst. eauto. Qed.

Lemma four (b : bytes) : length b = 4%nat -> exists b0 b1 b2 b3, b = [b0; b1; b2; b3].
Proof. destruct b as [|b0 [|b1 [|b2 [|b3 [|]]]]]; try discriminate. intros _. now exists b0, b1, b2, b3. Qed.

Lemma odometer_bytes v : exists b0 b1 b2, append_odometer v = [b0; b1; b2].
Proof. unfold append_odometer. destruct (four (to_be 4 v) (to_be_length 4 v)) as (b0 & b1 & b2 & b3 & ->). now exists b1, b2, b3. Qed.

Ltac binds := repeat match goal with
  | H : bind ?e _ = Ok _ |- _ => let x := fresh "x" in let E := fresh "E" in apply bind_ok in H as (x & E & H)
  | H : Ok _ = Ok _ |- _ => apply Ok_inj in H; try subst
  end.

Local Opaque marshal_enum unmarshal_enum to_be append_geo append_odometer unmarshal_geo place_enum_byte unmarshal_enum_or_unrecognized.

Lemma vreg_again cm n y :
  again (append_vreg (Some (mkVR n None))) (unmarshal_vreg cm) (fun v => option_map sv_value (vr_number v)) = Ok y -> y = Some [].
Proof.
  unfold again. intros E. apply bind_ok in E as (b & W & E). cbn [append_vreg vr_nation vr_number] in W.
  apply bind_ok in W as (a & _ & W). cbn in W. apply Ok_inj in W. subst b. cbn in E. apply Ok_inj in E. now subst y.
Qed.

Lemma driver_again st o y : again (append_full_card_number (Some (mkFCN 3 st None o))) unmarshal_full_card_number
  (fun x => match fcn_driver x with Some d => option_map ia5_value (di_number d) | None => None end) = Ok y -> y = Some [].
Proof.
  unfold again. intros E. apply bind_ok in E as (b & W & E). cbn [append_full_card_number fcn_type fcn_driver fcn_state] in W.
  apply bind_ok in W as (a & A & W). cbn in W. apply Ok_inj in W. subst b.
  replace a with 1 in * by (vm_compute in A; now apply Ok_inj in A). clear A.
  vm_compute in E. apply Ok_inj in E. now subst y.
Qed.

Lemma owner_again t st o y : t = 4 \/ t = 6 -> again (append_full_card_number (Some (mkFCN t st o None))) unmarshal_full_card_number
  (fun x => match fcn_owner x with
            | Some d => map (option_map ia5_value) [oi_number d; oi_consecutive d; oi_replacement d; oi_renewal d]
            | None => [] end) = Ok y -> y = repeat (Some []) 4.
Proof.
  intros T. unfold again. intros E. apply bind_ok in E as (b & W & E). cbn [append_full_card_number fcn_type fcn_owner fcn_state] in W.
  apply bind_ok in W as (a & A & W). destruct T as [-> | ->]; vm_compute in A; apply Ok_inj in A; subst a;
    cbn in W; apply Ok_inj in W; subst b; vm_compute in E; apply Ok_inj in E; now subst y.
Qed.

Lemma no_time b : append_time None = Ok b -> b = [0; 0; 0; 0].
Proof. intros E. vm_compute in E. now apply Ok_inj in E. Qed.

Lemma zero_time d x : firstn 4 d = [0; 0; 0; 0] -> unmarshal_time (sub d 0 4) = Ok x -> x = None.
Proof. intros Q E. unfold sub in E. cbn [skipn] in E. rewrite Q in E. cbn in E. now apply Ok_inj in E. Qed.

Lemma gnss_again a g y : again (append_gnss_place (Some (mkGP None a g))) unmarshal_gnss_place gp_time = Ok y -> y = None.
Proof.
  unfold again. intros E. apply bind_ok in E as (b & W & E). cbn [append_gnss_place gp_time gp_accuracy gp_geo] in W.
  apply bind_ok in W as (t & A & W). apply bind_ok in W as (u & _ & W). apply Ok_inj in W. apply no_time in A. subst t b.
  unfold unmarshal_gnss_place in E. apply bind_ok in E as (x & X & E). apply Ok_inj in E. subst y.
  apply bind_ok in X as (u' & _ & X). apply bind_ok in X as (t & T & X). apply bind_ok in X as (q & _ & X). apply Ok_inj in X. subst x. cbn [gp_time].
  eapply zero_time; [|exact T]. reflexivity.
Qed.

Lemma auth_again a g s u y : again (append_gnss_place_auth (Some (mkGPA None a g s u))) unmarshal_gnss_place_auth gpa_time = Ok y -> y = None.
Proof.
  unfold again. intros E. apply bind_ok in E as (b & W & E). cbn [append_gnss_place_auth gpa_time gpa_accuracy gpa_geo gpa_auth gpa_auth_unrecognized] in W.
  apply bind_ok in W as (t & A & W). apply bind_ok in W as (v & _ & W). apply Ok_inj in W. apply no_time in A. subst t b.
  unfold unmarshal_gnss_place_auth in E. apply bind_ok in E as (x & X & E). apply Ok_inj in E. subst y.
  apply bind_ok in X as (u' & _ & X). apply bind_ok in X as (t & T & X). apply bind_ok in X as (q & _ & X).
  assert (Q : t = None) by (eapply zero_time; [|exact T]; reflexivity). cbv zeta in X.
  destruct (unmarshal_enum _ _) in X; apply Ok_inj in X; subst x; exact Q.
Qed.

Lemma cond_again t u y : again (append_spec_cond (mkSC None t u)) unmarshal_spec_cond sc_time = Ok y -> y = None.
Proof.
  unfold again. intros E. apply bind_ok in E as (b & W & E). unfold append_spec_cond in W. cbn [sc_time sc_type sc_unrecognized] in W.
  apply bind_ok in W as (a & A & W). apply bind_ok in W as (v & _ & W). apply Ok_inj in W. apply no_time in A. subst a b.
  unfold unmarshal_spec_cond in E. apply bind_ok in E as (x & X & E). apply Ok_inj in E. subst y.
  apply bind_ok in X as (u' & _ & X). apply bind_ok in X as (q & T & X). cbv zeta in X.
  assert (Q : q = None) by (eapply zero_time; [|exact T]; reflexivity).
  destruct (unmarshal_enum _ _) in X; apply Ok_inj in X; subst x; exact Q.
Qed.

Lemma place_bytes t e eu c cu r o b : append_place (mkPlace [] t e eu c cu r o) = Ok b ->
  exists t0 t1 t2 t3 k o0 o1 o2, append_time t = Ok [t0; t1; t2; t3] /\
    b = [t0; t1; t2; t3; place_enum_byte entry_type_daily_work_period_table e eu; place_enum_byte nation_numeric_table c cu; k; o0; o1; o2].
Proof.
  unfold append_place. cbn [pl_raw pl_time pl_entry pl_entry_unrecognized pl_country pl_country_unrecognized pl_region pl_odometer].
  intros W. apply bind_ok in W as (z & Ez & W). apply Ok_inj in Ez. subst z. apply bind_ok in W as (a & A & W). apply Ok_inj in W.
  destruct (four a (append_time_len _ _ A)) as (t0 & t1 & t2 & t3 & ->). destruct (odometer_bytes o) as (o0 & o1 & o2 & Q). rewrite Q in W.
  exists t0, t1, t2, t3. destruct r as [|k r]; cbn in W; [exists 0|exists k]; exists o0, o1, o2; (split; [exact A|now symmetry]).
Qed.

Lemma place_again e eu c cu r o y : again (append_place (mkPlace [] None e eu c cu r o)) unmarshal_place pl_time = Ok y -> y = None.
Proof.
  unfold again. intros E. apply bind_ok in E as (b & W & E).
  apply place_bytes in W as (t0 & t1 & t2 & t3 & k & o0 & o1 & o2 & T & ->). apply no_time in T. injection T as -> -> -> ->.
  cbn in E. apply Ok_inj in E. now subst y.
Qed.

Lemma country_again t e eu r o y :
  again (append_place (mkPlace [] t e eu 0 None r o)) unmarshal_place (fun x => (pl_country x, pl_country_unrecognized x)) = Ok y -> y = (2, None).
Proof.
  unfold again. intros E. apply bind_ok in E as (b & W & E).
  apply place_bytes in W as (t0 & t1 & t2 & t3 & k & o0 & o1 & o2 & T & ->).
  replace (place_enum_byte nation_numeric_table 0 None) with 0 in E by (vm_compute; reflexivity).
  unfold unmarshal_place in E. apply bind_ok in E as (x & X & E). apply Ok_inj in E. subst y.
  apply bind_ok in X as (u & _ & X). apply bind_ok in X as (q & _ & X). cbv zeta in X. apply Ok_inj in X. subst x.
  cbn [pl_country pl_country_unrecognized nth]. vm_compute. reflexivity.
Qed.

Lemma place_g2_again e eu c cu r o g y : again (append_place_g2 (mkPlace2 [] None e eu c cu r o g)) unmarshal_place_g2 pl2_time = Ok y -> y = None.
Proof.
  unfold again. intros E. apply bind_ok in E as (b & W & E). unfold append_place_g2 in W.
  cbn [pl2_raw pl2_time pl2_entry pl2_entry_unrecognized pl2_country pl2_country_unrecognized pl2_region pl2_odometer pl2_gnss] in W.
  apply bind_ok in W as (z & Ez & W). apply Ok_inj in Ez. subst z. apply bind_ok in W as (a & A & W). apply bind_ok in W as (q & _ & W). apply Ok_inj in W.
  apply no_time in A. subst a. destruct (odometer_bytes o) as (o0 & o1 & o2 & Q). rewrite Q in W.
  assert (H : firstn 4 b = [0; 0; 0; 0]) by (subst b; destruct r as [|k r]; reflexivity).
  unfold unmarshal_place_g2 in E. apply bind_ok in E as (x & X & E). apply Ok_inj in E. subst y.
  apply bind_ok in X as (u & _ & X). apply bind_ok in X as (t & T & X). cbv zeta in X. apply bind_ok in X as (v & _ & X). apply Ok_inj in X. subst x.
  cbn [pl2_time]. eapply zero_time; eassumption.
Qed.

Lemma unspecified : marshal_enum nation_numeric_table 0 = fail /\ marshal_enum equipment_type_table 0 = fail /\ marshal_enum generation_table 0 = fail /\
  marshal_enum card_slot_number_table 0 = fail /\ marshal_enum driver_activity_value_table 0 = fail /\
  marshal_enum specific_condition_type_table 0 = fail /\ marshal_enum position_authentication_status_table 0 = fail.
Proof. repeat split; vm_compute; reflexivity. Qed.

(** What is missing reads back as missing, as zeros or as an empty text, or writing is
    refused: missing times, dates, months, versions, control types, card numbers and
    registration numbers, in whatever record they are; registrations, and enumerations that
    are not specified.  A missing country of a place reads back as the reserved number 0
    of no country.  Missing: the enumerations of places and events, positions, and when
    events begin. *)
Theorem C124_missing_partial :
  forall cm : Z -> Z -> Z,
  again (append_time None) unmarshal_time (fun t => t) = Ok None /\
  again (append_date None) unmarshal_date (fun x => (date_year x, date_month x, date_day x)) = Ok (0, 0, 0) /\
  again (append_csv None) unmarshal_csv (fun x => (csv_major x, csv_minor x)) = Ok (0, 0) /\
  again (append_month_year None) unmarshal_month_year (fun x => (my_month x, my_year x)) = Ok (0, 0) /\
  again (append_control_type None) unmarshal_control_type
    (fun x => [ct_card_downloading x; ct_vu_downloading x; ct_printing x; ct_display x; ct_calibration_checking x]) = Ok (repeat false 5) /\
  (forall n y, again (append_vreg (Some (mkVR n None))) (unmarshal_vreg cm) (fun v => option_map sv_value (vr_number v)) = Ok y -> y = Some []) /\
  (forall st o y, again (append_full_card_number (Some (mkFCN 3 st None o))) unmarshal_full_card_number
     (fun x => match fcn_driver x with Some d => option_map ia5_value (di_number d) | None => None end) = Ok y -> y = Some []) /\
  (forall t st o y, t = 4 \/ t = 6 -> again (append_full_card_number (Some (mkFCN t st o None))) unmarshal_full_card_number
     (fun x => match fcn_owner x with
               | Some d => map (option_map ia5_value) [oi_number d; oi_consecutive d; oi_replacement d; oi_renewal d]
               | None => [] end) = Ok y -> y = repeat (Some []) 4) /\
  (* times in records *)
  (forall a g y, again (append_gnss_place (Some (mkGP None a g))) unmarshal_gnss_place gp_time = Ok y -> y = None) /\
  (forall a g s u y, again (append_gnss_place_auth (Some (mkGPA None a g s u))) unmarshal_gnss_place_auth gpa_time = Ok y -> y = None) /\
  (forall t u y, again (append_spec_cond (mkSC None t u)) unmarshal_spec_cond sc_time = Ok y -> y = None) /\
  (forall e eu c cu r o y, again (append_place (mkPlace [] None e eu c cu r o)) unmarshal_place pl_time = Ok y -> y = None) /\
  (forall e eu c cu r o g y, again (append_place_g2 (mkPlace2 [] None e eu c cu r o g)) unmarshal_place_g2 pl2_time = Ok y -> y = None) /\
  (forall t e eu r o y, again (append_place (mkPlace [] t e eu 0 None r o)) unmarshal_place (fun x => (pl_country x, pl_country_unrecognized x)) = Ok y -> y = (2, None)) /\
  (* refused *)
  (forall b, append_vreg None <> Ok b) /\
  (forall x b, append_vreg (Some (mkVR 0 x)) <> Ok b) /\
  (forall b, append_full_card_number None <> Ok b) /\
  (forall st d o b, append_full_card_number (Some (mkFCN 0 st d o)) <> Ok b) /\
  (forall n b, append_card_number_gen (Some (mkCNG n 0)) <> Ok b) /\
  (forall r c i a m b, append_activity_change (mkAC r 0 c i a m) <> Ok b) /\
  (forall r s c i m b, append_activity_change (mkAC r s c i 0 m) <> Ok b) /\
  (forall t u b, append_spec_cond (mkSC t 0 u) <> Ok b) /\
  (forall t a g u b, append_gnss_place_auth (Some (mkGPA t a g 0 u)) <> Ok b).
Proof.
  intros cm. destruct unspecified as (U1 & U2 & U3 & U4 & U5 & U6 & U7).
  split; [vm_compute; reflexivity|]. split; [vm_compute; reflexivity|]. split; [vm_compute; reflexivity|].
  split; [vm_compute; reflexivity|]. split; [vm_compute; reflexivity|].
  split; [apply vreg_again|]. split; [apply driver_again|]. split; [apply owner_again|]. split; [apply gnss_again|].
  split; [apply auth_again|]. split; [apply cond_again|]. split; [apply place_again|]. split; [apply place_g2_again|].
  split; [apply country_again|].
  split; [intros b E; discriminate E|].
  split; [intros x b E; cbn [append_vreg vr_nation] in E; change (0 =? ENUM_UNRECOGNIZED) with false in E; rewrite U1 in E; discriminate E|].
  split; [intros b E; discriminate E|].
  split; [intros st d o b E; cbn [append_full_card_number fcn_type] in E; rewrite U2 in E; discriminate E|].
  split; [intros n b E; cbn [append_card_number_gen cng_number cng_generation] in E; apply bind_ok in E as (? & _ & E); rewrite U3 in E; discriminate E|].
  split; [intros r c i a m b E; unfold append_activity_change in E; cbn [ac_slot] in E; apply bind_ok in E as (? & _ & E); rewrite U4 in E; discriminate E|].
  split; [intros r st c i m b E; unfold append_activity_change in E; cbn [ac_slot ac_activity] in E; apply bind_ok in E as (? & _ & E); apply bind_ok in E as (? & _ & E); rewrite U5 in E; discriminate E|].
  split; [intros t u b E; unfold append_spec_cond in E; cbn [sc_time sc_type] in E; apply bind_ok in E as (? & _ & E); change (0 =? ENUM_UNRECOGNIZED) with false in E; rewrite U6 in E; discriminate E|].
  intros t a g u b E. cbn [append_gnss_place_auth gpa_time gpa_auth] in E. apply bind_ok in E as (? & _ & E). change (0 =? ENUM_UNRECOGNIZED) with false in E.
  rewrite U7 in E. discriminate E.
Qed.

(** A file is only written if it is there, and a driver card only if it is in it. *)
Theorem C124_files :
  forall o b, marshal_file o = Ok b ->
  exists f, o = Some f /\ (file_type f = 2 /\ file_driver_card f <> None \/ file_type f = 6).
Proof.
  intros [f|] b E; [|discriminate E]. exists f. split; [reflexivity|]. cbn [marshal_file] in E.
  unfold FILE_DRIVER_CARD, FILE_VEHICLE_UNIT, FILE_RAW_CARD in E.
  destruct (Z.eqb_spec (file_type f) 2) as [T|_].
  - left. split; [exact T|]. intros Q. rewrite Q in E. discriminate E.
  - destruct (Z.eqb_spec (file_type f) 1) as [_|_]; [destruct (file_vu f); discriminate E|].
    destruct (Z.eqb_spec (file_type f) 6) as [T|_]; [now right|discriminate E].
Qed.

(** Some of what is missing is made up.  A missing position reads back as the one at 0, 0
    and not as the unknown one, which is 0x7FFFFF twice.  A place without a type reads back
    as the beginning of a period of work.  An event without a beginning is written, and
    reads back as an empty slot: its type, its end and its vehicle are lost.  A file of
    the third kind without its records, and a driver card without anything in it, are written
    as an empty file, which cannot be read. *)
Theorem C124_missing_refuted :
  (exists r b x, gp_geo r = None /\ gp_time r <> None /\ append_gnss_place (Some r) = Ok b /\ unmarshal_gnss_place b = Ok x /\
     gp_time x = gp_time r /\ gp_geo x = Some (mkGeo 0 0) /\
     unmarshal_geo [127; 255; 255; 127; 255; 255] = Ok (mkGeo 8388607 8388607)) /\
  (exists r b x, pl_entry r = 0 /\ append_place r = Ok b /\ unmarshal_place b = Ok x /\ pl_time x = pl_time r /\
     pl_entry x = 2 /\ unmarshal_enum entry_type_daily_work_period_table 0 = Ok 2) /\
  (forall cm, exists r b x v, ev_valid r = true /\ ev_begin r = None /\ ev_end r <> None /\ ev_vehicle r = Some v /\
     append_events (Some [r]) = Ok b /\ unmarshal_events cm b = Ok [x] /\
     ev_valid x = false /\ ev_end x = None /\ ev_vehicle x = None) /\
  (forall cm, marshal_file (Some (mkFile 6 None None None)) = Ok [] /\
     marshal_file (Some (mkFile 2 None (Some empty_card) None)) = Ok [] /\ forall f, unmarshal_file cm [] <> Ok f).
Proof.
  split; [|split; [|split]].
  - exists (mkGP (Some (mkTs 1700000000 0)) 3 None). do 2 eexists.
    split; [reflexivity|]. split; [discriminate|]. split; [vm_compute; reflexivity|]. split; [vm_compute; reflexivity|]. repeat split; vm_compute; reflexivity.
  - exists (mkPlace [] (Some (mkTs 1700000000 0)) 0 None 17 None [1] 5000). do 2 eexists.
    split; [reflexivity|]. split; [vm_compute; reflexivity|]. split; [vm_compute; reflexivity|]. repeat split; vm_compute; reflexivity.
  - intros cm. exists (mkEv true [] 5 None (Some (mkTs 1700000000 0)) (Some (mkVR 17 (Some (mkSV None 2 (Some 13) [65; 66]))))). do 3 eexists.
    split; [reflexivity|]. split; [reflexivity|]. split; [discriminate|]. split; [reflexivity|].
    split; [vm_compute; reflexivity|]. split; [vm_compute; reflexivity|]. repeat split; reflexivity.
  - intros cm. split; [reflexivity|]. split; [reflexivity|]. intros f E. discriminate E.
Qed.

(** Records with something missing that are written and read. *)
Example C124_applies : forall cm,
  is_ok (again (append_vreg (Some (mkVR 17 None))) (unmarshal_vreg cm) (fun v => vr_nation v)) = true /\
  is_ok (again (append_full_card_number (Some (mkFCN 3 17 None None))) unmarshal_full_card_number fcn_type) = true /\
  is_ok (again (append_full_card_number (Some (mkFCN 6 17 None None))) unmarshal_full_card_number fcn_type) = true /\
  is_ok (again (append_gnss_place_auth (Some (mkGPA None 3 (Some (mkGeo 1 2)) 2 0))) unmarshal_gnss_place_auth gpa_time) = true /\
  is_ok (again (append_spec_cond (mkSC None 2 0)) unmarshal_spec_cond sc_time) = true /\
  is_ok (again (append_place (mkPlace [] None 2 None 0 None [] 5000)) unmarshal_place pl_time) = true /\
  is_ok (again (append_place_g2 (mkPlace2 [] None 2 None 17 None [1] 5000 None)) unmarshal_place_g2 pl2_time) = true.
Proof. intros cm. repeat split; vm_compute; reflexivity. Qed.
