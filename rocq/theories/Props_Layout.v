(** Where the decoded fields come from.

    The other properties relate reading and writing, so they would not notice two
    fields exchanged in both directions.  Here every record is given as the
    concatenation of its documented parts, in the order of the ASN.1 definitions
    quoted in /repo/proto and in /repo/docs/regulation/chapters/03-data-dictionary.md,
    and each decoded field is compared with its own part.  Nothing below mentions
    offsets, and numbers are read by [num], not by the model's [be]. *)

From Verif Require Import Base Enums DDScalar Utf8 DDString DDRecord CardBasic CardIdent
  CardRecords P_Basic.

(** The number whose base-256 digits are [l], most significant first. *)
Definition num (l : bytes) : Z := fold_left (fun a b => a * 256 + b) l 0.

(** Two's complement of a three-byte number. *)
Definition signed24 (l : bytes) : Z := if num l <? 8388608 then num l else num l - 16777216.

(** TimeReal: seconds since 1970, zero meaning "no time". *)
Definition is_time (l : bytes) (o : option timestamp) : Prop :=
  (num l = 0 /\ o = None) \/ (num l <> 0 /\ o = Some (mkTs (num l) 0)).

(** An enumeration value: the one annotated with this code, or UNRECOGNIZED (1)
    when no value carries it. *)
Definition is_code (T : enum_table) (b v : Z) : Prop :=
  In (v, Some b) T \/ ((forall w, ~ In (w, Some b) T) /\ v = 1).

(** Texts keep the bytes they were read from. *)
Definition text_of (l : bytes) (o : option string_value) : Prop :=
  exists s, o = Some s /\ sv_raw s = Some l.
Definition ascii_of (l : bytes) (o : option ia5) : Prop :=
  exists s, o = Some s /\ ia5_raw s = Some l.
Definition registration_of (nation : Z) (number : bytes) (o : option vreg) : Prop :=
  exists v, o = Some v /\ is_code nation_numeric_table nation (vr_nation v) /\
            text_of number (vr_number v).

Lemma num_be l : num l = be l.
Proof.
  unfold num, be. generalize 0. induction l as [|b t IH]; intros a; [reflexivity|]. apply IH.
Qed.

Lemma time_is l o : unmarshal_time l = Ok o -> is_time l o.
Proof.
  unfold unmarshal_time, is_time. intros H. inv_bind H. rewrite num_be.
  destruct (be l =? 0) eqn:Eq; apply Ok_inj in H; subst o.
  - left. split; [now apply Z.eqb_eq|reflexivity].
  - right. split; [now apply Z.eqb_neq|reflexivity].
Qed.

Lemma code_is T b v :
  In T all_enum_tables ->
  v = match unmarshal_enum T b with Ok n => n | _ => ENUM_UNRECOGNIZED end -> is_code T b v.
Proof.
  intros W ->. unfold is_code. pose proof (enum_wf T W) as V.
  destruct (unmarshal_enum T b) as [n| |] eqn:E.
  - left. now apply unmarshal_enum_iff.
  - right. split; [|reflexivity]. intros w Hw. apply (unmarshal_enum_iff T b w V) in Hw. congruence.
  - right. split; [|reflexivity]. intros w Hw. apply (unmarshal_enum_iff T b w V) in Hw. congruence.
Qed.

Lemma text_is cm l s : unmarshal_string_value cm l = Ok s -> text_of l (Some s).
Proof.
  unfold unmarshal_string_value. destruct (length l <? 2)%nat; [discriminate|].
  intros H. apply Ok_inj in H. subst s. eexists. split; reflexivity.
Qed.

Lemma ascii_is l s : unmarshal_ia5 l = Ok s -> ascii_of l (Some s).
Proof.
  unfold unmarshal_ia5. destruct (length l =? 0)%nat; [discriminate|].
  intros H. apply Ok_inj in H. subst s. eexists. split; reflexivity.
Qed.

(** Cutting a concatenation at the boundaries of its parts. *)
Lemma cut_here l m n : length l = n -> sub (l ++ m) 0 n = l.
Proof. apply sub_app_l. Qed.
Lemma cut_last l n : length l = n -> sub l 0 n = l.
Proof. intros <-. unfold sub. apply firstn_all. Qed.
Lemma cut_skip l m i n : (length l <= i)%nat -> sub (l ++ m) i n = sub m (i - length l) n.
Proof.
  intros H. unfold sub. rewrite skipn_app, (skipn_all2 l) by exact H. reflexivity.
Qed.
Lemma pick_skip l m i : (length l <= i)%nat -> nth i (l ++ m) 0 = nth (i - length l) m 0.
Proof. intros H. now rewrite app_nth2 by lia. Qed.

(** The lengths of the parts are hypotheses; each step drops one part. *)
Ltac lens := rewrite ?app_length; cbn [length]; lia.
Ltac norm_len H :=
  repeat match goal with L : length ?x = _ |- _ =>
           match type of H with context [length x] => rewrite L in H end end;
  cbn [length Nat.sub] in H.
Ltac cut H :=
  repeat match type of H with
  | context [sub (?l ++ ?m) 0 ?n] => rewrite (cut_here l m n) in H by lens
  | context [sub ?l 0 ?n] => rewrite (cut_last l n) in H by lens
  | context [sub (?l ++ ?m) ?i ?n] => rewrite (cut_skip l m i n) in H by lens; norm_len H
  | context [nth ?i (?l ++ ?m) 0] => rewrite (pick_skip l m i) in H by lens; norm_len H
  end;
  cbn [nth List.app] in H.

Lemma registration_is cm n l v :
  length l = 14%nat -> unmarshal_vreg cm ([n] ++ l) = Ok v -> registration_of n l (Some v).
Proof.
  intros L H. unfold unmarshal_vreg in H. inv_bind H. inv_bind H. apply Ok_inj in H. subst v.
  eexists. split; [reflexivity|]. cbn [vr_nation vr_number].
  match goal with E : unmarshal_string_value _ _ = Ok _ |- _ => cut E; apply text_is in E; rename E into T end.
  split; [|exact T]. apply code_is; [unfold all_enum_tables; simpl; tauto|reflexivity].
Qed.

Lemma signed_is l : length l = 3%nat -> bytes_ok l -> read_int24 l = signed24 l.
Proof.
  intros L B. pose proof (be_range l B) as R. rewrite L in R. change (256 ^ Z.of_nat 3) with 16777216 in R.
  unfold read_int24, signed24. rewrite num_be. generalize dependent (be l). intros v R.
  assert (T : Z.testbit v 23 = negb (v <? 8388608)).
  { rewrite Z.testbit_eqb by lia. change (2 ^ 23) with 8388608.
    destruct (v <? 8388608) eqn:C.
    - apply Z.ltb_lt in C. rewrite Z.div_small by lia. reflexivity.
    - apply Z.ltb_ge in C. replace (v / 8388608) with 1; [reflexivity|].
      apply (Z.div_unique v 8388608 1 (v - 8388608)); lia. }
  rewrite T. destruct (v <? 8388608); cbn [negb]; [reflexivity|].
  replace (Z.lor v 4278190080) with (v + 4278190080).
  - unfold s32. cbn zeta. rewrite ?Z.mod_small by lia.
    repeat match goal with |- context [if ?c then _ else _] => destruct c eqn:?; try lia end.
  - enough (N : Z.land v 4278190080 = 0) by (now rewrite Z.add_nocarry_lxor, Z.lxor_lor by exact N).
    change 4278190080 with (Z.shiftl 255 24). apply Z.bits_inj'. intros k K.
    rewrite Z.land_spec, Z.bits_0. destruct (Z.lt_ge_cases k 24).
    + rewrite Z.shiftl_spec_low by lia. apply andb_false_r.
    + rewrite (Z.bits_above_log2 v k); [reflexivity|lia|].
      destruct (Z.eq_dec v 0) as [->|]; [cbn; lia|].
      assert (Z.log2 v < 24) by (apply Z.log2_lt_pow2; [lia|change (2 ^ 24) with 16777216; lia]). lia.
Qed.

(** Opens the monadic steps of an accepted parse and states each decoded part. *)
Ltac opened H := repeat inv_bind H; apply Ok_inj in H; subst.
Ltac known := unfold all_enum_tables; simpl; tauto.
Ltac decoded :=
  repeat match goal with
  | E : unmarshal_time ?l = Ok _ |- _ => apply time_is in E
  | E : unmarshal_string_value _ ?l = Ok _ |- _ => apply text_is in E
  | E : unmarshal_ia5 ?l = Ok _ |- _ => apply ascii_is in E
  | E : unmarshal_vreg _ _ = Ok _ |- _ => apply registration_is in E; [|assumption]
  end.
Ltac settle := rewrite ?num_be; repeat split; try assumption; try reflexivity.

(** ** Records of the data dictionary *)

(** proto dd/v1/geo_coordinates.proto *)
Lemma geo_layout : forall lat lon g,
  length lat = 3%nat -> length lon = 3%nat -> bytes_ok lat -> bytes_ok lon ->
  unmarshal_geo (lat ++ lon) = Ok g ->
  geo_latitude g = signed24 lat /\ geo_longitude g = signed24 lon.
Proof.
  intros a o g L1 L2 B1 B2 H. unfold unmarshal_geo in H. cut H. opened H.
  cbn [geo_latitude geo_longitude]. now rewrite !signed_is.
Qed.

(** proto dd/v1/gnss_place_record.proto *)
Theorem C73_gnss_place_layout : forall time accuracy lat lon r,
  length time = 4%nat -> length lat = 3%nat -> length lon = 3%nat ->
  bytes_ok lat -> bytes_ok lon ->
  unmarshal_gnss_place (time ++ [accuracy] ++ lat ++ lon) = Ok r ->
  is_time time (gp_time r) /\ gp_accuracy r = accuracy /\
  exists g, gp_geo r = Some g /\ geo_latitude g = signed24 lat /\ geo_longitude g = signed24 lon.
Proof.
  intros t a la lo r L1 L2 L3 B1 B2 H. unfold unmarshal_gnss_place in H.
  assert (L4 : length (la ++ lo) = 6%nat) by (rewrite app_length; lia).
  remember (la ++ lo) as ll eqn:Ell.
  cut H. opened H. decoded. cbn [gp_time gp_accuracy gp_geo].
  split; [assumption|]. split; [reflexivity|]. eexists. split; [reflexivity|].
  eapply geo_layout; eauto.
Qed.

(** proto dd/v1/card_vehicle_record.proto *)
Theorem C73_vehicle_layout : forall cm odo_begin odo_end first last nation number counter r,
  length odo_begin = 3%nat -> length odo_end = 3%nat -> length first = 4%nat ->
  length last = 4%nat -> length number = 14%nat -> length counter = 2%nat ->
  unmarshal_card_vehicle cm
    (odo_begin ++ odo_end ++ first ++ last ++ ([nation] ++ number) ++ counter) = Ok r ->
  cv_odo_begin r = num odo_begin /\ cv_odo_end r = num odo_end /\
  is_time first (cv_first_use r) /\ is_time last (cv_last_use r) /\
  registration_of nation number (cv_reg r).
Proof.
  intros cm ob oe f l n x c r L1 L2 L3 L4 L5 L6 H. unfold unmarshal_card_vehicle in H.
  assert (L7 : length ([n] ++ x) = 15%nat) by (rewrite app_length, L5; reflexivity).
  remember ([n] ++ x) as v eqn:Ev.
  cut H. opened H. decoded. settle.
Qed.

(** proto dd/v1/card_vehicle_record_g2.proto *)
Theorem C73_vehicle_g2_layout :
  forall cm odo_begin odo_end first last nation number counter vin r,
  length odo_begin = 3%nat -> length odo_end = 3%nat -> length first = 4%nat ->
  length last = 4%nat -> length number = 14%nat -> length counter = 2%nat ->
  length vin = 17%nat ->
  unmarshal_card_vehicle_g2 cm
    (odo_begin ++ odo_end ++ first ++ last ++ ([nation] ++ number) ++ counter ++ vin) = Ok r ->
  cv2_odo_begin r = num odo_begin /\ cv2_odo_end r = num odo_end /\
  is_time first (cv2_first_use r) /\ is_time last (cv2_last_use r) /\
  registration_of nation number (cv2_reg r) /\
  exists pad, vin = cv2_vin r ++ pad /\ Forall (fun b => b = 0 \/ b = 32) pad.
Proof.
  intros cm ob oe f l n x c w r L1 L2 L3 L4 L5 L6 L8 H. unfold unmarshal_card_vehicle_g2 in H.
  assert (L7 : length ([n] ++ x) = 15%nat) by (rewrite app_length, L5; reflexivity).
  remember ([n] ++ x) as v eqn:Ev.
  cut H. opened H. decoded. settle. cbn [cv2_vin]. clear.
  induction w as [|b t (pad & Hp & Hf)]; [exists []; split; [reflexivity|constructor]|].
  cbn [trim_right_bytes]. destruct (trim_right_bytes vin_cut t) as [|y ys].
  - destruct (vin_cut b) eqn:C.
    + exists (b :: pad). cbn in Hp |- *. split; [now rewrite Hp|]. constructor; [|exact Hf].
      unfold vin_cut in C. apply orb_prop in C as [C|C]; apply Z.eqb_eq in C; auto.
    + exists pad. cbn in Hp |- *. split; [now rewrite Hp|exact Hf].
  - exists pad. cbn in Hp |- *. split; [now rewrite Hp|exact Hf].
Qed.

(** proto dd/v1/place_record.proto *)
Theorem C73_place_layout : forall time entry country region odo r,
  length time = 4%nat -> length odo = 3%nat ->
  unmarshal_place (time ++ [entry] ++ [country] ++ [region] ++ odo) = Ok r ->
  is_time time (pl_time r) /\ is_code entry_type_daily_work_period_table entry (pl_entry r) /\
  is_code nation_numeric_table country (pl_country r) /\ pl_region r = [region] /\
  pl_odometer r = num odo.
Proof.
  intros t e c g o r L1 L2 H. unfold unmarshal_place in H. cut H. opened H. decoded.
  cbn [pl_time pl_entry pl_country pl_region pl_odometer]. settle.
  - apply code_is; [known|]. unfold unmarshal_enum_or_unrecognized.
    now destruct (unmarshal_enum entry_type_daily_work_period_table e).
  - apply code_is; [known|]. unfold unmarshal_enum_or_unrecognized.
    now destruct (unmarshal_enum nation_numeric_table c).
Qed.

(** ** Card files *)

(** proto card/v1/ic.proto *)
Theorem C73_ic_layout : forall serial references rest x,
  length serial = 4%nat -> length references = 4%nat ->
  unmarshal_ic (serial ++ references ++ rest) = Ok x ->
  ic_serial x = serial /\ ic_references x = references.
Proof.
  intros s m rest x L1 L2 H. unfold unmarshal_ic in H. cut H. opened H. split; reflexivity.
Qed.

(** proto card/v1/current_usage.proto *)
Theorem C73_current_usage_layout : forall cm time nation number x,
  length time = 4%nat -> length number = 14%nat ->
  unmarshal_current_usage cm (time ++ ([nation] ++ number)) = Ok x ->
  is_time time (cu_time x) /\ registration_of nation number (cu_vehicle x).
Proof.
  intros cm t n l x L1 L2 H. unfold unmarshal_current_usage in H.
  assert (L3 : length ([n] ++ l) = 15%nat) by (rewrite app_length, L2; reflexivity).
  remember ([n] ++ l) as v eqn:Ev. cut H. opened H. decoded. settle.
Qed.

(** proto card/v1/driving_licence_info.proto *)
Theorem C73_driving_licence_layout : forall cm authority nation number x,
  length authority = 36%nat -> length number = 16%nat ->
  unmarshal_driving_licence cm (authority ++ [nation] ++ number) = Ok x ->
  text_of authority (dl_authority x) /\ is_code nation_numeric_table nation (dl_nation x) /\
  ascii_of number (dl_number x).
Proof.
  intros cm a n l x L1 L2 H. unfold unmarshal_driving_licence in H. cut H. opened H. decoded. settle.
  apply code_is; [known|reflexivity].
Qed.

(** proto card/v1/application_identification.proto *)
Theorem C73_app_id_layout : forall kind version events faults activity vehicles places x,
  length version = 2%nat -> length activity = 2%nat -> length vehicles = 2%nat ->
  unmarshal_app_id ([kind] ++ version ++ [events] ++ [faults] ++ activity ++ vehicles ++ [places])
    = Ok x ->
  (exists t, ai_type x = Some t /\ In (t, Some kind) equipment_type_table) /\
  (exists w, ai_version x = Some w /\ csv_raw w = Some version) /\
  ai_driver x = Some (mkAD (Some events) (Some faults) (Some (num activity))
                           (Some (num vehicles)) (Some places)).
Proof.
  intros k v e f a w p x L1 L2 L3 H. unfold unmarshal_app_id in H. cut H. opened H.
  cbn [ai_type ai_version ai_driver]. split.
  - eexists. split; [reflexivity|].
    match goal with E : unmarshal_enum _ _ = Ok _ |- _ => apply unmarshal_enum_iff in E; [exact E|enum_wf] end.
  - split; [|now rewrite !num_be]. eexists. split; [reflexivity|].
    match goal with E : unmarshal_csv _ = Ok _ |- _ =>
      unfold unmarshal_csv in E; inv_bind E; apply Ok_inj in E; subst end. reflexivity.
Qed.

(** proto card/v1/application_identification_g2.proto *)
Theorem C73_app_id_g2_layout :
  forall kind version events faults activity vehicles places gnss conditions units x,
  length version = 2%nat -> length activity = 2%nat -> length vehicles = 2%nat ->
  length places = 2%nat -> length gnss = 2%nat -> length conditions = 2%nat ->
  length units = 2%nat ->
  unmarshal_app_id_g2 ([kind] ++ version ++ [events] ++ [faults] ++ activity ++ vehicles ++
                       places ++ gnss ++ conditions ++ units) = Ok x ->
  (exists t, ai2_type x = Some t /\ In (t, Some kind) equipment_type_table) /\
  (exists w, ai2_version x = Some w /\ csv_raw w = Some version) /\
  ai2_driver x = Some (mkAD2 (Some events) (Some faults) (Some (num activity))
                             (Some (num vehicles)) (Some (num places)) (Some (num gnss))
                             (Some (num conditions)) (Some (num units))).
Proof.
  intros k v e f a w p g c u x L1 L2 L3 L4 L5 L6 L7 H. unfold unmarshal_app_id_g2 in H.
  cut H. opened H. cbn [ai2_type ai2_version ai2_driver]. split.
  - eexists. split; [reflexivity|].
    match goal with E : unmarshal_enum _ _ = Ok _ |- _ => apply unmarshal_enum_iff in E; [exact E|enum_wf] end.
  - split; [|now rewrite !num_be]. eexists. split; [reflexivity|].
    match goal with E : unmarshal_csv _ = Ok _ |- _ =>
      unfold unmarshal_csv in E; inv_bind E; apply Ok_inj in E; subst end. reflexivity.
Qed.

(** proto card/v1/identification.proto, all of the card part but the card number,
    and the holder part of a driver card.  A Name is a code page and 35 bytes
    (data dictionary 2.99); the comments in the .proto file say 36 bytes. *)
Theorem C73_identification_layout :
  forall cm nation number authority issue valid expiry surname names birth language x,
  length number = 16%nat -> length authority = 36%nat -> length issue = 4%nat ->
  length valid = 4%nat -> length expiry = 4%nat -> length surname = 36%nat ->
  length names = 36%nat -> length birth = 4%nat -> length language = 2%nat ->
  unmarshal_identification cm
    ([nation] ++ number ++ authority ++ issue ++ valid ++ expiry ++
     surname ++ names ++ birth ++ language) = Ok x ->
  exists c h, ident_card_part x = Some c /\ ident_holder_part x = Some h /\
    is_code nation_numeric_table nation (id_nation c) /\ text_of authority (id_authority c) /\
    is_time issue (id_issue c) /\ is_time valid (id_begin c) /\ is_time expiry (id_expiry c) /\
    text_of surname (ih_surname h) /\ text_of names (ih_first_names h) /\
    ascii_of language (ih_language h).
Proof.
  intros cm n m a i v e s f b l x L1 L2 L3 L4 L5 L6 L7 L8 L9 H.
  unfold unmarshal_identification in H. cut H. opened H. decoded.
  do 2 eexists. split; [reflexivity|]. split; [reflexivity|].
  cbn [id_nation id_authority id_issue id_begin id_expiry ih_surname ih_first_names ih_language].
  settle. apply code_is; [known|reflexivity].
Qed.

(** proto card/v1/gnss_places.proto *)
Theorem C73_gnss_record_layout : forall time place odo r,
  length time = 4%nat -> length place = 11%nat -> length odo = 3%nat ->
  unmarshal_gnss_record (time ++ place ++ odo) = Ok r ->
  is_time time (gr_time r) /\ gr_odometer r = num odo /\
  exists p, gr_place r = Some p /\ unmarshal_gnss_place place = Ok p.
Proof.
  intros t p o r L1 L2 L3 H. unfold unmarshal_gnss_record in H. cut H. opened H. decoded.
  cbn [gr_time gr_odometer gr_place]. split; [assumption|]. split.
  - match goal with E : unmarshal_odometer _ = Ok _ |- _ =>
      unfold unmarshal_odometer in E; inv_bind E; apply Ok_inj in E; subst end.
    symmetry. apply num_be.
  - eexists. split; [reflexivity|assumption].
Qed.

(** proto dd/v1/place_record_g2.proto *)
Theorem C73_place_g2_layout : forall time entry country region odo gnss r,
  length time = 4%nat -> length odo = 3%nat -> length gnss = 11%nat ->
  unmarshal_place_g2 (time ++ [entry] ++ [country] ++ [region] ++ odo ++ gnss) = Ok r ->
  is_time time (pl2_time r) /\ is_code entry_type_daily_work_period_table entry (pl2_entry r) /\
  is_code nation_numeric_table country (pl2_country r) /\ pl2_region r = [region] /\
  pl2_odometer r = num odo /\ exists g, pl2_gnss r = Some g /\ unmarshal_gnss_place gnss = Ok g.
Proof.
  intros t e c g o w r L1 L2 L3 H. unfold unmarshal_place_g2 in H. cut H. opened H. decoded.
  cbn [pl2_time pl2_entry pl2_country pl2_region pl2_odometer pl2_gnss]. settle.
  - apply code_is; [known|]. unfold unmarshal_enum_or_unrecognized.
    now destruct (unmarshal_enum entry_type_daily_work_period_table e).
  - apply code_is; [known|]. unfold unmarshal_enum_or_unrecognized.
    now destruct (unmarshal_enum nation_numeric_table c).
  - eexists. split; [reflexivity|assumption].
Qed.

(** proto dd/v1/gnss_place_auth_record.proto *)
Theorem C73_gnss_place_auth_layout : forall time accuracy lat lon status r,
  length time = 4%nat -> length lat = 3%nat -> length lon = 3%nat ->
  bytes_ok lat -> bytes_ok lon ->
  unmarshal_gnss_place_auth (time ++ [accuracy] ++ (lat ++ lon) ++ [status]) = Ok r ->
  is_time time (gpa_time r) /\ gpa_accuracy r = accuracy /\
  is_code position_authentication_status_table status (gpa_auth r) /\
  exists g, gpa_geo r = Some g /\ geo_latitude g = signed24 lat /\ geo_longitude g = signed24 lon.
Proof.
  intros t a la lo st r L1 L2 L3 B1 B2 H. unfold unmarshal_gnss_place_auth in H.
  assert (L4 : length (la ++ lo) = 6%nat) by (rewrite app_length; lia).
  remember (la ++ lo) as ll eqn:Ell. cbv zeta in H. cut H.
  inv_bind H. inv_bind H. inv_bind H. decoded.
  match goal with E : unmarshal_geo _ = Ok ?g |- _ =>
    assert (G : geo_latitude g = signed24 la /\ geo_longitude g = signed24 lo)
      by (rewrite Ell in E; eapply geo_layout; eauto) end.
  assert (C : is_code position_authentication_status_table st
                match unmarshal_enum position_authentication_status_table st with
                | Ok n => n | _ => ENUM_UNRECOGNIZED end) by (apply code_is; [known|reflexivity]).
  destruct (unmarshal_enum position_authentication_status_table st);
    apply Ok_inj in H; subst r; cbn [gpa_time gpa_accuracy gpa_auth gpa_geo];
    (split; [assumption|]); (split; [reflexivity|]); (split; [exact C|]); eexists; split; [reflexivity|exact G|reflexivity|exact G|reflexivity|exact G].
Qed.

(** proto dd/v1/specific_condition_record.proto *)
Theorem C73_condition_layout : forall time kind r,
  length time = 4%nat -> unmarshal_spec_cond (time ++ [kind]) = Ok r ->
  is_time time (sc_time r) /\ is_code specific_condition_type_table kind (sc_type r).
Proof.
  intros t k r L1 H. unfold unmarshal_spec_cond in H. cbv zeta in H. cut H.
  inv_bind H. inv_bind H. decoded.
  assert (C : is_code specific_condition_type_table k
                match unmarshal_enum specific_condition_type_table k with
                | Ok n => n | _ => ENUM_UNRECOGNIZED end) by (apply code_is; [known|reflexivity]).
  destruct (unmarshal_enum specific_condition_type_table k);
    apply Ok_inj in H; subst r; split; assumption.
Qed.

(** proto dd/v1/extended_serial_number.proto; the month and year are BCD. *)
Theorem C73_ext_serial_layout : forall serial month_year_ kind maker r,
  length serial = 4%nat -> length month_year_ = 2%nat ->
  unmarshal_ext_serial (serial ++ month_year_ ++ [kind] ++ [maker]) = Ok r ->
  es_serial r = num serial /\ is_code equipment_type_table kind (es_type r) /\
  es_manufacturer r = maker /\
  exists m, es_month_year r = Some m /\ my_raw m = month_year_.
Proof.
  intros s m k w r L1 L2 H. unfold unmarshal_ext_serial in H. cbv zeta in H. cut H. opened H.
  cbn [es_serial es_type es_manufacturer es_month_year]. settle.
  - apply code_is; [known|reflexivity].
  - eexists. split; [reflexivity|].
    match goal with E : unmarshal_month_year _ = Ok _ |- _ => unfold unmarshal_month_year in E; inv_bind E;
      destruct (decode_bcd m); [destruct (0 <? _)| |]; try discriminate E; apply Ok_inj in E; subst end;
    reflexivity.
Qed.

(** proto card/v1/vehicle_units_used.proto; the record as the scanner shows it
    while it is parsed and afterwards. *)
Theorem C73_unit_layout : forall time maker device version r,
  length time = 4%nat -> length device = 1%nat -> length version = 4%nat ->
  let d := time ++ [maker] ++ device ++ version in
  unmarshal_unit_record (d, d) = Ok r ->
  is_time time (ur_time r) /\ ur_manufacturer r = maker /\
  ur_device r = device /\ ur_version r = version.
Proof.
  intros t m d v r L1 L2 L3 dd H. unfold unmarshal_unit_record, dd in H. cbn [fst snd] in H.
  cut H. opened H. decoded. settle.
Qed.

(** proto card/v1/events_data.proto and faults_data.proto, a used record. *)
Theorem C73_event_layout : forall cm kind begin_ end_ nation number r,
  length begin_ = 4%nat -> length end_ = 4%nat -> length number = 14%nat -> num begin_ <> 0 ->
  let d := [kind] ++ begin_ ++ end_ ++ ([nation] ++ number) in
  unmarshal_event cm (d, d) = Ok r ->
  is_code event_fault_type_table kind (ev_type r) /\ is_time begin_ (ev_begin r) /\
  is_time end_ (ev_end r) /\ registration_of nation number (ev_vehicle r).
Proof.
  intros cm k b e n x r L1 L2 L3 N d H. unfold unmarshal_event, d in H. cbn [fst snd] in H. clear d.
  rewrite num_be in N. apply Z.eqb_neq in N.
  replace (sub ([k] ++ b ++ e ++ [n] ++ x) 10 14) with x in H.
  2:{ symmetry. rewrite (cut_skip [k]) by lens. cbn [length Nat.sub]. rewrite (cut_skip b) by lens. rewrite L1. cbn [Nat.sub].
      rewrite (cut_skip e) by lens. rewrite L2. cbn [Nat.sub]. rewrite (cut_skip [n]) by lens. now apply cut_last. }
  assert (L4 : length ([n] ++ x) = 15%nat) by (rewrite app_length, L3; reflexivity).
  remember ([n] ++ x) as v eqn:Ev. cut H. rewrite N in H. opened H. decoded.
  match goal with E : registration_of _ _ (Some ?y) |- _ => destruct E as (w & Ew & C & (sv & Es & Er)) end.
  match goal with E : Some _ = Some w |- _ => injection E as -> end.
  match goal with E : unmarshal_enum _ _ = Ok _ |- _ => apply unmarshal_enum_iff in E; [|enum_wf] end.
  cbn [ev_type ev_begin ev_end ev_vehicle]. split; [left; assumption|]. split; [assumption|].
  split; [assumption|]. eexists. split; [reflexivity|]. unfold alias_vreg. cbn [vr_nation vr_number].
  split; [exact C|]. rewrite Es. eexists. split; reflexivity.
Qed.

(** proto card/v1/icc.proto *)
Theorem C73_icc_layout :
  forall clock serial month_year_ kind maker approval personaliser country module_ info ident x,
  length serial = 4%nat -> length month_year_ = 2%nat -> length approval = 8%nat ->
  length country = 2%nat -> length module_ = 2%nat -> length ident = 2%nat ->
  unmarshal_icc ([clock] ++ (serial ++ month_year_ ++ [kind] ++ [maker]) ++ approval ++
                 [personaliser] ++ (country ++ module_ ++ [info]) ++ ident) = Ok x ->
  ascii_of approval (icc_approval x) /\ icc_personaliser x = personaliser /\
  icc_ic_identifier x = ident /\
  (exists s, icc_serial x = Some s /\ es_serial s = num serial /\ es_manufacturer s = maker) /\
  (exists e, icc_embedder x = Some e /\ ascii_of country (em_country e) /\
             ascii_of module_ (em_module e) /\ em_manufacturer e = info).
Proof.
  intros c s m k w a p co mo i id x L1 L2 L3 L4 L5 L6 H. unfold unmarshal_icc in H. cbv zeta in H.
  assert (L7 : length (s ++ m ++ [k] ++ [w]) = 8%nat) by (rewrite !app_length, L1, L2; reflexivity).
  assert (L8 : length (co ++ mo ++ [i]) = 5%nat) by (rewrite !app_length, L4, L5; reflexivity).
  remember (s ++ m ++ [k] ++ [w]) as es eqn:Ees. remember (co ++ mo ++ [i]) as em eqn:Eem.
  cut H. rewrite Ees, Eem in H. cut H. opened H. decoded.
  cbn [icc_approval icc_personaliser icc_ic_identifier icc_serial icc_embedder].
  split; [assumption|]. split; [reflexivity|]. split; [reflexivity|]. split; eexists; (split; [reflexivity|]);
  cbn [es_serial es_manufacturer em_country em_module em_manufacturer]; rewrite ?num_be; repeat split; assumption.
Qed.

(** The pointer in front of a list; the records behind it are in Props_Lists.v. *)
Theorem C73_list_layout :
  (forall p rest x, unmarshal_places ([p] ++ rest) = Ok x -> ps_newest x = p) /\
  (forall p rest x, length p = 2%nat -> unmarshal_places_g2 (p ++ rest) = Ok x -> ps2_newest x = num p) /\
  (forall cm p rest x, length p = 2%nat -> unmarshal_vehicles cm (p ++ rest) = Ok x -> vs_newest x = num p) /\
  (forall cm p rest x, length p = 2%nat -> unmarshal_vehicles_g2 cm (p ++ rest) = Ok x -> vs2_newest x = num p) /\
  (forall p rest x, length p = 2%nat -> unmarshal_gnss_places (p ++ rest) = Ok x -> gps_newest x = num p) /\
  (forall p rest x, length p = 2%nat -> unmarshal_units_used (p ++ rest) = Ok x -> uu_newest x = num p) /\
  (forall p rest x, length p = 2%nat -> unmarshal_conditions_g2 (p ++ rest) = Ok x -> co2_newest x = num p).
Proof.
  repeat split; intros; rewrite ?num_be;
  match goal with H : _ = Ok _ |- _ =>
    first [ unfold unmarshal_places in H | unfold unmarshal_places_g2 in H
          | unfold unmarshal_vehicles in H | unfold unmarshal_vehicles_g2 in H
          | unfold unmarshal_gnss_places in H | unfold unmarshal_units_used in H
          | unfold unmarshal_conditions_g2 in H ];
    repeat inv_bind H; apply Ok_inj in H; subst end;
  cbn [ps_newest ps2_newest vs_newest vs2_newest gps_newest uu_newest co2_newest];
  rewrite ?cut_here by assumption; reflexivity.
Qed.

(** ** Where the code leaves the documented layout *)

(** proto card/v1/application_identification_v2.proto and data dictionary 2.61a:
    a length comes first (2.89a), and it and the counts take two bytes each (2.101a,
    2.111a, 2.112a, 2.185a).  The code reads four single bytes and no length
    (internal/card/application_identification_v2.go:38-66). *)
Theorem C73_app_id_v2_refuted :
  exists length_ border load load_type config x c,
    (length length_ = 2 /\ length border = 2 /\ length load = 2 /\
     length load_type = 2 /\ length config = 2)%nat /\
    unmarshal_app_id_v2 (length_ ++ border ++ load ++ load_type ++ config) = Ok x /\
    av2_driver x = Some c /\
    v2_border c <> num border /\ v2_load c <> num load /\
    v2_load_type c <> num load_type /\ v2_config c <> num config.
Proof.
  exists [0; 8], [4; 96], [6; 88], [1; 80], [12; 0]. do 2 eexists.
  split; [repeat split; reflexivity|]. split; [reflexivity|]. split; [reflexivity|].
  vm_compute. repeat split; discriminate.
Qed.

(** proto card/v1/control_activity_data.proto: controlCardNumber is a
    FullCardNumber, whose first byte is the card type and whose second the issuing
    state.  The code reports a driver card of state 0 whatever they say, and takes
    both bytes into the text (internal/card/control_activity.go:70-92). *)
Theorem C73_control_card_misread :
  forall cm kind time card_type state number nation registration begin_ end_ x,
  length time = 4%nat -> length number = 16%nat -> length registration = 14%nat ->
  length begin_ = 4%nat -> length end_ = 4%nat -> num time <> 0 ->
  unmarshal_control_activity cm
    ([kind] ++ time ++ ([card_type] ++ [state] ++ number) ++ ([nation] ++ registration) ++
     begin_ ++ end_) = Ok x ->
  exists g f d, ca_card x = Some g /\ cng_number g = Some f /\
    fcn_type f = EQ_DRIVER_CARD /\ fcn_state f = 0 /\ fcn_driver f = Some d /\
    ascii_of (card_type :: state :: number) (di_number d).
Proof.
  intros cm k t ct st n na r b e x L1 L2 L3 L4 L5 N H. unfold unmarshal_control_activity in H.
  assert (L6 : length ([ct] ++ [st] ++ n) = 18%nat) by (rewrite !app_length, L2; reflexivity).
  assert (L7 : length ([na] ++ r) = 15%nat) by (rewrite app_length, L3; reflexivity).
  change (ct :: st :: n) with ([ct] ++ [st] ++ n).
  remember ([ct] ++ [st] ++ n) as card eqn:Ec. remember ([na] ++ r) as v eqn:Ev.
  inv_bind H. rewrite num_be in N. cut H. apply Z.eqb_neq in N. rewrite N in H.
  opened H. decoded. do 3 eexists. repeat split; try reflexivity. assumption.
Qed.

(** A control card (type 3) of Germany (13) is reported as a driver card of no
    state. *)
Theorem C73_control_card_refuted :
  exists cm kind time card_type state number nation registration begin_ end_ x g f,
    (length time = 4 /\ length number = 16 /\ length registration = 14 /\
     length begin_ = 4 /\ length end_ = 4)%nat /\
    unmarshal_control_activity cm
      ([kind] ++ time ++ ([card_type] ++ [state] ++ number) ++ ([nation] ++ registration) ++
       begin_ ++ end_) = Ok x /\
    ca_card x = Some g /\ cng_number g = Some f /\
    ~ is_code equipment_type_table card_type (fcn_type f) /\
    ~ is_code nation_numeric_table state (fcn_state f).
Proof.
  exists (fun _ b => b), 128, [95; 0; 0; 0], 3, 13, (repeat 49 16), 13, (1 :: repeat 65 13),
    [94; 0; 0; 0], [95; 0; 0; 0].
  do 3 eexists. split; [repeat split; reflexivity|].
  split; [vm_compute; reflexivity|]. split; [reflexivity|]. split; [reflexivity|].
  cbn [fcn_type fcn_state]. split; intros [K|[K _]].
  - vm_compute in K. intuition congruence.
  - apply (K 5). vm_compute. tauto.
  - vm_compute in K. intuition congruence.
  - destruct (unmarshal_enum nation_numeric_table 13) as [v| |] eqn:V;
      [|vm_compute in V; discriminate V|vm_compute in V; discriminate V].
    apply (K v), unmarshal_enum_iff; [enum_wf|exact V].
Qed.

(** The hypotheses of the layout theorems are met by ordinary records. *)
Example C73_vehicle_layout_applies :
  exists r, unmarshal_card_vehicle (fun _ b => b)
    ([1; 226; 64] ++ [1; 226; 164] ++ [95; 0; 0; 0] ++ [95; 0; 14; 16] ++
     ([13] ++ 1 :: repeat 65 13) ++ [0; 18]) = Ok r /\
  cv_odo_begin r = 123456 /\ cv_odo_end r = 123556.
Proof. eexists. split; [vm_compute; reflexivity|]. split; reflexivity. Qed.

Example C73_place_layout_applies :
  exists r, unmarshal_place ([95; 0; 0; 0] ++ [1] ++ [13] ++ [7] ++ [1; 226; 64]) = Ok r /\
  pl_odometer r = 123456 /\ pl_region r = [7].
Proof. eexists. split; [vm_compute; reflexivity|]. split; reflexivity. Qed.

Example C73_gnss_place_layout_applies :
  exists r g, unmarshal_gnss_place ([95; 0; 0; 0] ++ [9] ++ [0; 234; 196] ++ [255; 160; 16]) = Ok r /\
  gp_accuracy r = 9 /\ gp_geo r = Some g /\ geo_latitude g = 60100 /\ geo_longitude g = -24560.
Proof. do 2 eexists. split; [vm_compute; reflexivity|]. repeat split; reflexivity. Qed.

Example C73_app_id_g2_layout_applies :
  exists x, unmarshal_app_id_g2 ([1] ++ [1; 1] ++ [12] ++ [24] ++ [53; 210] ++ [0; 200] ++
     [0; 112] ++ [1; 80] ++ [0; 56] ++ [0; 100]) = Ok x /\
  exists a, ai2_driver x = Some a /\ ad2_places a = Some 112 /\ ad2_gnss a = Some 336.
Proof. eexists. split; [vm_compute; reflexivity|]. eexists. repeat split; reflexivity. Qed.

(** One accepted input per remaining theorem. *)
Definition sample_time : bytes := [95; 0; 0; 0].
Definition sample_number : bytes := 1 :: repeat 65 13.
Definition sample_name : bytes := 1 :: repeat 66 35.
Definition accepted {A} (r : res A) : Prop := exists x, r = Ok x.

Example C73_layouts_apply :
  let cm := fun _ b => b in let t := sample_time in
  accepted (unmarshal_card_vehicle_g2 cm ([0; 0; 1] ++ [0; 0; 2] ++ t ++ t ++ ([13] ++ sample_number) ++
              [0; 18] ++ repeat 87 17)) /\
  accepted (unmarshal_place_g2 (t ++ [1] ++ [13] ++ [7] ++ [0; 0; 1] ++ (t ++ [9] ++ [0; 0; 1] ++ [0; 0; 2]))) /\
  accepted (unmarshal_gnss_place_auth (t ++ [9] ++ ([0; 0; 1] ++ [0; 0; 2]) ++ [1])) /\
  accepted (unmarshal_spec_cond (t ++ [3])) /\
  accepted (unmarshal_ext_serial ([0; 0; 0; 7] ++ [18; 32] ++ [1] ++ [64])) /\
  accepted (unmarshal_unit_record (t ++ [64] ++ [1] ++ [48; 49; 48; 50], t ++ [64] ++ [1] ++ [48; 49; 48; 50])) /\
  accepted (unmarshal_event cm ([1] ++ t ++ t ++ ([13] ++ sample_number), [1] ++ t ++ t ++ ([13] ++ sample_number))) /\
  accepted (unmarshal_icc ([0] ++ ([0; 0; 0; 7] ++ [18; 32] ++ [1] ++ [64]) ++ repeat 65 8 ++ [64] ++
              ([70; 73] ++ [77; 69] ++ [5]) ++ [1; 2])) /\
  accepted (unmarshal_ic ([1; 2; 3; 4] ++ [5; 6; 7; 8] ++ [])) /\
  accepted (unmarshal_current_usage cm (t ++ ([13] ++ sample_number))) /\
  accepted (unmarshal_driving_licence cm (sample_name ++ [13] ++ repeat 67 16)) /\
  accepted (unmarshal_app_id ([1] ++ [0; 0] ++ [12] ++ [24] ++ [53; 210] ++ [0; 200] ++ [112])) /\
  accepted (unmarshal_identification cm ([13] ++ repeat 49 16 ++ sample_name ++ t ++ t ++ t ++
              sample_name ++ sample_name ++ [25; 128; 1; 2] ++ [102; 105])) /\
  accepted (unmarshal_gnss_record (t ++ (t ++ [9] ++ [0; 0; 1] ++ [0; 0; 2]) ++ [0; 0; 3])) /\
  accepted (unmarshal_places ([0] ++ (t ++ [1] ++ [13] ++ [7] ++ [0; 0; 1]))) /\
  accepted (unmarshal_control_activity cm ([128] ++ t ++ ([3] ++ [13] ++ repeat 49 16) ++
              ([13] ++ sample_number) ++ t ++ t)).
Proof. unfold accepted. repeat split; eexists; vm_compute; reflexivity. Qed.
