(** C89: what is written is what is read. *)

From Coq Require Import String.
From Verif Require Import Base Enums DDScalar Chunks Utf8 DDString DDRecord RawTypes Infer CardBasic CardIdent CardRecords.
From Verif Require Import P_Utf8 P_Scalar Props_Scalar P_Basic P_String Props_String Field P_Record P_Records P_Scanner Scanner.
From Verif Require Import Anonymize P_Anonymize P_Ident Props_Ident Props_Edit Props_Layout P_Build.
From Verif Require Import CardActivity Props_Activity.
Local Open Scope list_scope.

(** A file whose message [x] is written, and read back as a message equal to [x]
    up to preserved bytes. *)
Definition kept {X} (ap : option X -> res bytes) (un : bytes -> res X) (plain : X -> X) (x : X) : Prop :=
  exists out y, ap (Some x) = Ok out /\ un out = Ok y /\ plain y = plain x.

(** ** Files of fixed size *)

Definition ic_ok (x : ic) : Prop := length (ic_serial x) = 4%nat /\ length (ic_references x) = 4%nat.

Lemma ic_kept x : ic_ok x -> kept append_ic unmarshal_ic (fun x => x) x.
Proof.
  destruct x as [s r]. intros [Ls Lr]. cbn [ic_serial ic_references] in *.
  exists (s ++ r), (mkIc s r). cbn [append_ic ic_serial ic_references]. rewrite !pad_copy_exact by auto.
  split; [reflexivity|]. split; [|reflexivity]. unfold unmarshal_ic. rewrite app_length, Ls, Lr.
  cbn [Nat.add Nat.ltb Nat.leb negb guard bind]. pick. reflexivity.
Qed.

Definition icc_ok (x : icc) : Prop :=
  coded clock_stop_mode_table (icc_clock_stop x) /\
  (exists e, icc_serial x = Some e /\ 0 <= es_serial e < 4294967296 /\ month_year_ok (es_month_year e) /\
     coded equipment_type_table (es_type e) /\ 0 <= es_manufacturer e < 256) /\
  ia5_ok 8 (icc_approval x) /\ 0 <= icc_personaliser x < 256 /\
  (exists e, icc_embedder x = Some e /\ ia5_ok 2 (em_country e) /\ ia5_ok 2 (em_module e) /\
     0 <= em_manufacturer e < 256) /\
  length (icc_ic_identifier x) = 2%nat.

Definition plain_icc (x : icc) : icc :=
  mkIcc (icc_clock_stop x)
    (option_map (fun e => mkES (es_serial e) (option_map plain_month_year (es_month_year e)) (es_type e)
                            (es_manufacturer e)) (icc_serial x))
    (option_map plain_ia5 (icc_approval x)) (icc_personaliser x)
    (option_map (fun e => mkEmb (option_map plain_ia5 (em_country e)) (option_map plain_ia5 (em_module e))
                            (em_manufacturer e)) (icc_embedder x))
    (icc_ic_identifier x).

Lemma serial_written e bm ct : 0 <= es_serial e < 4294967296 ->
  append_month_year (es_month_year e) = Ok bm -> length bm = 2%nat ->
  marshal_enum equipment_type_table (es_type e) = Ok ct -> es_type e <> ENUM_UNSPECIFIED ->
  0 <= es_manufacturer e < 256 ->
  append_ext_serial_as_string (Some e) 8 = Ok (to_be 4 (es_serial e) ++ bm ++ [ct] ++ [es_manufacturer e]).
Proof.
  intros Hs Em Lm Mc Nt Hm. unfold append_ext_serial_as_string. rewrite Em. cbn [bind]. rewrite Lm.
  cbn [Nat.leb]. destruct (Z.eqb_spec (es_type e) ENUM_UNSPECIFIED); [contradiction|]. rewrite Mc. cbn [bind].
  destruct (len2 _ Lm) as (m0 & m1 & ->).
  assert (S4 : (if es_serial e =? 0 then zeros 8 else copy_into (zeros 8) 0 4 (to_be 4 (es_serial e))) =
               to_be 4 (es_serial e) ++ zeros 4).
  { destruct (Z.eqb_spec (es_serial e) 0) as [->|_]; reflexivity. }
  rewrite S4. pose proof (to_be_length 4 (es_serial e)) as L4.
  destruct (len4 _ L4) as (s0 & s1 & s2 & s3 & ->).
  destruct (Z.eqb_spec (es_manufacturer e) 0) as [->|_]; [reflexivity|].
  rewrite u8_small by auto. reflexivity.
Qed.

Lemma icc_kept x : icc_ok x -> kept append_icc unmarshal_icc plain_icc x.
Proof.
  destruct x as [cs se ap pe em id].
  intros (Kc & (e & Es & Hs & Hm & Kt & Hf) & Ha & Hp & (d & Ed & Hc & Hmo & Hd) & Hi).
  cbn [icc_clock_stop icc_serial icc_approval icc_personaliser icc_embedder icc_ic_identifier] in *. subst se em.
  destruct (coded_code _ _ in_clock Kc) as (c & Mc & Uc).
  destruct (coded_code _ _ in_equipment Kt) as (t & Mt & Ut).
  assert (Nt : es_type e <> ENUM_UNSPECIFIED).
  { now destruct (unmarshal_enum_coded equipment_type_table t (es_type e) eq_refl Ut). }
  destruct (month_year_survives _ Hm) as (bm & ym & xm & Em & Am & Lm & Um & Pm).
  destruct (ia5_survives 8 _ ltac:(lia) Ha) as (ba & ya & xa & Ea & Aa & La & Ua & Pa).
  destruct (ia5_survives 2 _ ltac:(lia) Hc) as (bc & yc & xc & Ec & Ac & Lc & Ucc & Pc).
  destruct (ia5_survives 2 _ ltac:(lia) Hmo) as (bo & yo & xo & Eo & Ao & Lo & Uo & Po).
  pose proof (serial_written e bm t Hs Am Lm Mt Nt Hf) as Sw.
  pose proof (to_be_length 4 (es_serial e)) as L4.
  eexists. eexists. split; [|split].
  - unfold append_icc. cbn [odflt icc_clock_stop icc_serial icc_approval icc_personaliser icc_embedder icc_ic_identifier].
    rewrite Mc, Sw, Aa. cbn [bind append_embedder]. rewrite Ac, Ao. cbn [bind]. reflexivity.
  - unfold unmarshal_icc. rewrite <- !app_assoc.
    rewrite !app_length, Lm, La, Lc, Lo, Hi, L4. cbn [length Nat.add Nat.ltb Nat.leb negb guard bind].
    rewrite !sub_sub by lia. rewrite !nth_sub by lia. cbn [Nat.add icc_personaliser]. rewrite !u8_small by auto.
    set (s4 := to_be 4 (es_serial e)) in *. pick. rewrite Uc, Um, Ut, Ua, Ucc, Uo. cbn [bind].
    subst s4. rewrite be4_back by auto. reflexivity.
  - unfold plain_icc.
    cbn [icc_clock_stop icc_serial icc_approval icc_personaliser icc_embedder icc_ic_identifier option_map
         es_serial es_month_year es_type es_manufacturer em_country em_module em_manufacturer].
    rewrite Ea, Ec, Eo, Em. cbn [option_map]. now rewrite Pm, Pa, Pc, Po.
Qed.

Lemma download_kept x : writable_time x -> kept append_card_download unmarshal_card_download (fun x => x) x.
Proof.
  intros W. destruct (time_survives _ W) as (b & E & L & U & _). exists b, x. split; [exact E|].
  split; [|reflexivity]. unfold unmarshal_card_download. rewrite L. cbn [Nat.ltb Nat.leb negb guard bind].
  now rewrite sub_whole.
Qed.

Definition current_usage_ok (cm : Z -> Z -> Z) (x : current_usage) : Prop :=
  writable_time (cu_time x) /\ vreg_ok cm (cu_vehicle x).

Definition plain_current_usage (x : current_usage) : current_usage :=
  mkCU (cu_time x) (option_map plain_vreg (cu_vehicle x)).

Lemma current_usage_kept cm x : ascii_charmaps cm -> current_usage_ok cm x ->
  kept append_current_usage (unmarshal_current_usage cm) plain_current_usage x.
Proof.
  destruct x as [t v]. intros A (Wt & Hv). cbn [cu_time cu_vehicle] in *.
  destruct (time_survives _ Wt) as (bt & Et & Lt & Ut & _).
  destruct (vreg_survives cm _ A Hv) as (bv & y & v0 & -> & Av & Lv & Uv & Pv).
  exists (bt ++ bv). eexists. cbn [append_current_usage cu_time cu_vehicle]. rewrite Et, Av. split; [reflexivity|].
  split.
  - unfold unmarshal_current_usage. rewrite app_length, Lt, Lv. cbn [Nat.add Nat.ltb Nat.leb negb guard bind].
    pick. rewrite Ut, Uv. reflexivity.
  - unfold plain_current_usage. cbn [cu_time cu_vehicle option_map]. now rewrite Pv.
Qed.

Definition licence_ok (cm : Z -> Z -> Z) (x : driving_licence) : Prop :=
  text_ok cm 35 (dl_authority x) /\ coded nation_numeric_table (dl_nation x) /\ ia5_ok 16 (dl_number x).

Definition plain_licence (x : driving_licence) : driving_licence :=
  mkDL (option_map plain_text (dl_authority x)) (dl_nation x) (option_map plain_ia5 (dl_number x)).

Lemma licence_kept cm x : ascii_charmaps cm -> licence_ok cm x ->
  kept append_driving_licence (unmarshal_driving_licence cm) plain_licence x.
Proof.
  destruct x as [a n i]. intros A (Ha & Kn & Hi). cbn [dl_authority dl_nation dl_number] in *.
  destruct (text_survives cm 35 _ A ltac:(lia) Ha) as (ba & ya & xa & -> & Aa & La & Ua & Pa).
  destruct (ia5_survives 16 _ ltac:(lia) Hi) as (bi & yi & xi & -> & Ai & Li & Ui & Pi).
  destruct (coded_code _ _ in_nation Kn) as (c & Mc & Uc).
  exists (ba ++ [c] ++ bi). eexists. cbn [append_driving_licence dl_authority dl_nation dl_number].
  rewrite Aa, Mc, Ai. split; [reflexivity|]. split.
  - unfold unmarshal_driving_licence. rewrite !app_length, La, Li. cbn [length Nat.add Nat.ltb Nat.leb negb guard bind].
    pick. rewrite Ua, Uc, Ui. reflexivity.
  - unfold plain_licence. cbn [dl_authority dl_nation dl_number option_map]. now rewrite Pa, Pi.
Qed.

(** The number of the controlling card is kept as text of eighteen bytes, which is
    also how the parser presents it; an invalid entry is its 46 bytes. *)
Definition control_ok (cm : Z -> Z -> Z) (x : control_activity) : Prop :=
  (ca_valid x = true /\ ca_raw x = [] /\ ca_type x <> None /\ writable_time (ca_time x) /\ ca_time x <> None /\
   (exists n, ca_card x = Some (mkCNG (Some (mkFCN EQ_DRIVER_CARD 0 (Some (mkDI n)) None)) GENERATION_1) /\
      ia5_ok 18 n) /\
   vreg_ok cm (ca_vehicle x) /\ writable_time (ca_begin x) /\ writable_time (ca_end x)) \/
  (exists raw, x = mkCA false raw None None None None None None /\ length raw = 46%nat /\ be (sub raw 1 4) = 0).

Definition plain_control_type (c : control_type) : control_type :=
  mkCT None (ct_card_downloading c) (ct_vu_downloading c) (ct_printing c) (ct_display c) (ct_calibration_checking c).

Definition plain_fcn (n : full_card_number) : full_card_number :=
  mkFCN (fcn_type n) (fcn_state n)
    (option_map (fun d => mkDI (option_map plain_ia5 (di_number d))) (fcn_driver n))
    (option_map (fun o => mkOI (option_map plain_ia5 (oi_number o)) (option_map plain_ia5 (oi_consecutive o))
                            (option_map plain_ia5 (oi_replacement o)) (option_map plain_ia5 (oi_renewal o)))
       (fcn_owner n)).

Definition plain_control (x : control_activity) : control_activity :=
  mkCA (ca_valid x) (ca_raw x) (option_map plain_control_type (ca_type x)) (ca_time x)
    (option_map (fun g => mkCNG (option_map plain_fcn (cng_number g)) (cng_generation g)) (ca_card x))
    (option_map plain_vreg (ca_vehicle x)) (ca_begin x) (ca_end x).

Lemma control_kept cm x : ascii_charmaps cm -> control_ok cm x ->
  kept append_control_activity (unmarshal_control_activity cm) plain_control x.
Proof.
  intros A [(V & Er & Nt & Wt & Ntm & (n & Ec & Hn) & Hv & Wb & We)|(raw & -> & Lr & Z0)].
  - destruct x as [va raw ty t card v b e].
    cbn [ca_valid ca_raw ca_type ca_time ca_card ca_vehicle ca_begin ca_end] in *. subst va raw card.
    destruct ty as [ct|]; [|contradiction].
    destruct (time_survives _ Wt) as (bt & Et & Lt & Ut & Pt).
    destruct (time_survives _ Wb) as (bb & Eb & Lb & Ub & _).
    destruct (time_survives _ We) as (be' & Ee & Le & Ue & _).
    destruct (ia5_survives 18 _ ltac:(lia) Hn) as (bn & yn & xn & -> & An & Ln & Un & Pn).
    destruct (vreg_survives cm _ A Hv) as (bv & yv & v0 & -> & Av & Lv & Uv & Pv).
    set (cb := control_type_byte (Some ct)).
    assert (Hc : exists yc, unmarshal_control_type [cb] = Ok yc /\ plain_control_type yc = plain_control_type ct).
    { unfold cb. destruct ct as [r f1 f2 f3 f4 f5]. eexists. split; [reflexivity|].
      destruct f1, f2, f3, f4, f5; reflexivity. }
    destruct Hc as (yc & Uc & Pc).
    exists ([cb] ++ bt ++ bn ++ bv ++ bb ++ be'). eexists. split; [|split].
    + unfold append_control_activity.
      cbn [ca_valid ca_raw ca_type ca_time ca_card ca_vehicle ca_begin ca_end negb cng_number].
      rewrite Et. cbn [bind append_full_card_number_as_string fcn_type fcn_driver di_number].
      rewrite Z.eqb_refl, An, Av, Eb, Ee. cbn [bind]. reflexivity.
    + unfold unmarshal_control_activity. clearbody cb. rewrite !app_length, Lt, Ln, Lv, Lb, Le.
      cbn [length Nat.add Nat.ltb Nat.leb negb guard bind]. pick.
      destruct (Z.eqb_spec (be bt) 0) as [Q|_]; [exfalso; now apply (Pt Ntm)|].
      rewrite Uc, Ut, Un, Uv, Ub, Ue. cbn [bind]. reflexivity.
    + unfold plain_control. cbn [ca_valid ca_raw ca_type ca_time ca_card ca_vehicle ca_begin ca_end option_map
        cng_number cng_generation]. unfold plain_fcn. cbn [fcn_type fcn_state fcn_driver fcn_owner option_map di_number].
      now rewrite Pc, Pn, Pv.
  - exists raw. eexists. cbn [append_control_activity ca_valid ca_raw negb]. rewrite Lr. cbn [Nat.eqb negb].
    split; [reflexivity|]. unfold unmarshal_control_activity. rewrite Lr. cbn [Nat.ltb Nat.leb negb guard bind].
    rewrite Z0. split; reflexivity.
Qed.

Definition byte_some (o : option Z) : Prop := exists v, o = Some v /\ 0 <= v < 256.
Definition u16_some (o : option Z) : Prop := exists v, o = Some v /\ 0 <= v < 65536.

Definition app_id_ok (x : app_id) : Prop :=
  (exists t, ai_type x = Some t /\ coded equipment_type_table t) /\ csv_ok (ai_version x) /\
  ai_card_type x = DRIVER_CARD /\
  exists a, ai_driver x = Some a /\ byte_some (ad_events a) /\ byte_some (ad_faults a) /\
    u16_some (ad_activity_length a) /\ u16_some (ad_vehicles a) /\ byte_some (ad_places a).

Definition plain_app_id (x : app_id) : app_id :=
  mkAI (ai_type x) (option_map plain_csv (ai_version x)) (ai_card_type x) (ai_driver x).

Lemma or_zero T v c : marshal_enum T v = Ok c -> marshal_enum_or_zero T v = c.
Proof. intros E. unfold marshal_enum_or_zero. now rewrite E. Qed.

Lemma app_id_kept x : app_id_ok x -> kept append_app_id unmarshal_app_id plain_app_id x.
Proof.
  destruct x as [ty v ct dr]. intros ((t & Et & Kt) & Hv & Ec & (a & Ea & Ha)).
  cbn [ai_type ai_version ai_card_type ai_driver] in *. subst ty ct dr.
  destruct a as [a1 a2 a3 a4 a5]. cbn [ad_events ad_faults ad_activity_length ad_vehicles ad_places] in Ha.
  destruct Ha as ((e1 & -> & H1) & (e2 & -> & H2) & (e3 & -> & H3) & (e4 & -> & H4) & (e5 & -> & H5)).
  destruct (coded_code _ _ in_equipment Kt) as (c & Mc & Uc).
  destruct (csv_survives _ Hv) as (bv & yv & v0 & -> & Av & Lv & Uv & Pv).
  exists ([c] ++ bv ++ [e1] ++ [e2] ++ to_be 2 (u16 e3) ++ to_be 2 (u16 e4) ++ [e5]). eexists.
  pose proof (to_be_length 2 (u16 e3)) as L3. pose proof (to_be_length 2 (u16 e4)) as L4.
  split; [|split].
  - unfold append_app_id. cbn [ai_type ai_version ai_card_type ai_driver].
    rewrite (or_zero _ _ _ Mc), Av. cbn [bind]. rewrite Z.eqb_refl.
    cbn [ad_events ad_faults ad_activity_length ad_vehicles ad_places].
    unfold opt_byte, opt_u16. cbn [odflt]. now rewrite (u8_small e1), (u8_small e2), (u8_small e5) by auto.
  - unfold unmarshal_app_id. rewrite !app_length, Lv, L3, L4. cbn [length Nat.add Nat.eqb guard bind].
    pick. rewrite Uc, Uv. cbn [bind nth]. rewrite !pointer_back by auto. reflexivity.
  - unfold plain_app_id. cbn [ai_type ai_version ai_card_type ai_driver option_map]. now rewrite Pv.
Qed.

Definition app_id_g2_ok (x : app_id_g2) : Prop :=
  (exists t, ai2_type x = Some t /\ coded equipment_type_table t) /\ csv_ok (ai2_version x) /\
  ai2_card_type x = DRIVER_CARD /\
  exists a, ai2_driver x = Some a /\ byte_some (ad2_events a) /\ byte_some (ad2_faults a) /\
    u16_some (ad2_activity_length a) /\ u16_some (ad2_vehicles a) /\ u16_some (ad2_places a) /\
    u16_some (ad2_gnss a) /\ u16_some (ad2_conditions a) /\ u16_some (ad2_units a).

Definition plain_app_id_g2 (x : app_id_g2) : app_id_g2 :=
  mkAI2 (ai2_type x) (option_map plain_csv (ai2_version x)) (ai2_card_type x) (ai2_driver x).

Lemma app_id_g2_kept x : app_id_g2_ok x -> kept append_app_id_g2 unmarshal_app_id_g2 plain_app_id_g2 x.
Proof.
  destruct x as [ty v ct dr]. intros ((t & Et & Kt) & Hv & Ec & (a & Ea & Ha)).
  cbn [ai2_type ai2_version ai2_card_type ai2_driver] in *. subst ty ct dr.
  destruct a as [a1 a2 a3 a4 a5 a6 a7 a8].
  cbn [ad2_events ad2_faults ad2_activity_length ad2_vehicles ad2_places ad2_gnss ad2_conditions ad2_units] in Ha.
  destruct Ha as ((e1 & -> & H1) & (e2 & -> & H2) & (e3 & -> & H3) & (e4 & -> & H4) & (e5 & -> & H5) &
    (e6 & -> & H6) & (e7 & -> & H7) & (e8 & -> & H8)).
  destruct (coded_code _ _ in_equipment Kt) as (c & Mc & Uc).
  destruct (csv_survives _ Hv) as (bv & yv & v0 & -> & Av & Lv & Uv & Pv).
  exists ([c] ++ bv ++ [e1] ++ [e2] ++ to_be 2 (u16 e3) ++ to_be 2 (u16 e4) ++ to_be 2 (u16 e5) ++
          to_be 2 (u16 e6) ++ to_be 2 (u16 e7) ++ to_be 2 (u16 e8)). eexists.
  pose proof (to_be_length 2 (u16 e3)) as L3. pose proof (to_be_length 2 (u16 e4)) as L4.
  pose proof (to_be_length 2 (u16 e5)) as L5. pose proof (to_be_length 2 (u16 e6)) as L6.
  pose proof (to_be_length 2 (u16 e7)) as L7. pose proof (to_be_length 2 (u16 e8)) as L8.
  split; [|split].
  - unfold append_app_id_g2. cbn [ai2_type ai2_version ai2_card_type ai2_driver].
    rewrite (or_zero _ _ _ Mc), Av. cbn [bind]. rewrite Z.eqb_refl.
    cbn [ad2_events ad2_faults ad2_activity_length ad2_vehicles ad2_places ad2_gnss ad2_conditions ad2_units].
    unfold opt_byte, opt_u16. cbn [odflt]. now rewrite (u8_small e1), (u8_small e2) by auto.
  - unfold unmarshal_app_id_g2. rewrite !app_length, Lv, L3, L4, L5, L6, L7, L8. cbn [length Nat.add Nat.eqb guard bind].
    pick. rewrite Uc, Uv. cbn [bind nth]. rewrite !pointer_back by auto. reflexivity.
  - unfold plain_app_id_g2. cbn [ai2_type ai2_version ai2_card_type ai2_driver option_map]. now rewrite Pv.
Qed.

Definition app_id_v2_ok (x : app_id_v2) : Prop :=
  exists c, x = mkAV2 DRIVER_CARD (Some c) None None None /\ bytes_ok [v2_border c; v2_load c; v2_load_type c; v2_config c].

Lemma app_id_v2_kept x : app_id_v2_ok x -> kept append_app_id_v2 unmarshal_app_id_v2 (fun x => x) x.
Proof.
  intros ([a b c d] & -> & H). cbn [v2_border v2_load v2_load_type v2_config] in H.
  exists [a; b; c; d]. eexists. split; [|split; reflexivity].
  unfold append_app_id_v2. cbn [av2_card_type av2_driver]. rewrite Z.eqb_refl. cbn [odflt v2_border v2_load v2_load_type v2_config].
  repeat (apply Forall_cons_iff in H as [? H]). now rewrite !u8_small.
Qed.

(** ** Identification *)

(** An identifier of [n] bytes, and an index of one printable character. *)
Definition number_is (n : nat) (o : option ia5) : Prop :=
  exists s, o = Some s /\ ia5_length s = Some (Z.of_nat n) /\ clean_utf8 (ia5_value s) /\ (length (ia5_value s) <= n)%nat.
Definition index_is (o : option ia5) (c : Z) : Prop :=
  exists s, o = Some s /\ ia5_length s = Some 1 /\ ia5_value s = [c] /\ 32 < c < 127.

(** A driver's number ends in two digits; an owner's must not, or it would be taken
    for a driver's. *)
Inductive number_ok : Z -> card_number -> Prop :=
| number_driver x a b : number_is 14 (dn_number x) -> index_is (dn_replacement x) a -> index_is (dn_renewal x) b ->
    is_digit a -> is_digit b -> number_ok CARD_TYPE_DRIVER (CN_driver x)
| number_owner x a b c : number_is 13 (oi_number x) -> index_is (oi_consecutive x) a ->
    index_is (oi_replacement x) b -> index_is (oi_renewal x) c -> ~ (is_digit b /\ is_digit c) ->
    number_ok CARD_TYPE_WORKSHOP (CN_owner x).

Definition plain_number (c : card_number) : card_number :=
  match c with
  | CN_none => CN_none
  | CN_driver x => CN_driver (mkDN (option_map plain_ia5 (dn_number x)) (option_map plain_ia5 (dn_replacement x))
                                (option_map plain_ia5 (dn_renewal x)))
  | CN_owner x => CN_owner (mkOI (option_map plain_ia5 (oi_number x)) (option_map plain_ia5 (oi_consecutive x))
                              (option_map plain_ia5 (oi_replacement x)) (option_map plain_ia5 (oi_renewal x)))
  end.

Lemma number_written n o : (1 <= n)%nat -> number_is n o ->
  length (number_bytes n o) = n /\
  exists y, unmarshal_ia5 (number_bytes n o) = Ok y /\ Some (plain_ia5 y) = option_map plain_ia5 o.
Proof.
  intros N ([r l v] & -> & El & C & L). cbn [ia5_length ia5_value] in *. subst l. cbn [number_bytes ia5_value].
  rewrite firstn_all2 by lia.
  assert (Ld : length (pad_spaces n v) = n) by (unfold pad_spaces; rewrite app_length, repeat_length; lia).
  split; [exact Ld|]. eexists. rewrite unmarshal_ia5_ok by lia. split; [reflexivity|].
  cbn [option_map]. unfold plain_ia5. cbn [ia5_length ia5_value]. rewrite Ld. do 2 f_equal.
  unfold pad_spaces. apply clean_padded. now apply clean_utf8_text.
Qed.

Lemma index_written d o c : index_is o c -> index_byte d o = c /\
  exists y, unmarshal_ia5 [c] = Ok y /\ Some (plain_ia5 y) = option_map plain_ia5 o.
Proof.
  intros ([r l v] & -> & El & Ev & H). cbn [ia5_length ia5_value] in *. subst l v. split; [reflexivity|].
  eexists. split; [reflexivity|]. cbn [option_map]. unfold plain_ia5. cbn [ia5_length ia5_value].
  do 2 f_equal. change [c] with ([c] ++ repeat 32 0) at 1. apply clean_padded. apply tidy_clean.
  split; [repeat constructor; lia|]. right. cbn [hd last]. lia.
Qed.

Lemma digit_is b : digitb b = true <-> is_digit b.
Proof. unfold digitb, is_digit. lia. Qed.

Lemma number_kept t c : number_ok t c ->
  length (append_card_number c) = 16%nat /\
  exists y, unmarshal_card_number (append_card_number c) = Ok (t, y) /\ plain_number y = plain_number c.
Proof.
  intros [x a b Hn Ha Hb Da Db|x a b e Hn Ha Hb He D].
  - destruct (number_written 14 _ ltac:(lia) Hn) as (Ln & yn & Un & Pn).
    destruct (index_written 48 _ _ Ha) as (Ea & ya & Ua & Pa).
    destruct (index_written 48 _ _ Hb) as (Eb & yb & Ub & Pb).
    cbn [append_card_number]. rewrite Ea, Eb. set (n := number_bytes 14 (dn_number x)) in *. clearbody n.
    split; [rewrite app_length, Ln; reflexivity|].
    unfold unmarshal_card_number. change [a; b] with ([a] ++ [b]). pick. cbn [nth].
    rewrite Un. assert (Da' : digitb a && digitb b = true) by (rewrite andb_true_iff, !digit_is; auto).
    rewrite Da', Ua, Ub. eexists. split; [reflexivity|].
    cbn [plain_number dn_number dn_replacement dn_renewal option_map]. now rewrite Pn, Pa, Pb.
  - destruct (number_written 13 _ ltac:(lia) Hn) as (Ln & yn & Un & Pn).
    destruct (index_written 0 _ _ Ha) as (Ea & ya & Ua & Pa).
    destruct (index_written 0 _ _ Hb) as (Eb & yb & Ub & Pb).
    destruct (index_written 0 _ _ He) as (Ee & ye & Ue & Pe).
    cbn [append_card_number]. rewrite Ea, Eb, Ee. set (n := number_bytes 13 (oi_number x)) in *. clearbody n.
    split; [rewrite app_length, Ln; reflexivity|].
    unfold unmarshal_card_number. rewrite (unmarshal_ia5_ok (sub _ 0 14))
      by (rewrite sub_length; [lia|rewrite app_length, Ln; cbn [length]; lia]).
    assert (D' : digitb b && digitb e = false)
      by (apply not_true_iff_false; rewrite andb_true_iff, !digit_is; exact D).
    change [a; b; e] with ([a] ++ [b] ++ [e]). pick. cbn [nth]. rewrite D', Un, Ua, Ub, Ue. cbn [bind].
    eexists. split; [reflexivity|].
    cbn [plain_number oi_number oi_consecutive oi_replacement oi_renewal option_map]. now rewrite Pn, Pa, Pb, Pe.
Qed.

Definition identification_ok (cm : Z -> Z -> Z) (x : identification) : Prop :=
  (exists c, ident_card_part x = Some c /\ coded nation_numeric_table (id_nation c) /\
     number_ok (ident_type x) (id_number c) /\ text_ok cm 35 (id_authority c) /\
     writable_time (id_issue c) /\ writable_time (id_begin c) /\ writable_time (id_expiry c)) /\
  (exists h, ident_holder_part x = Some h /\ text_ok cm 35 (ih_surname h) /\ text_ok cm 35 (ih_first_names h) /\
     date_ok (ih_birth h) /\ ia5_ok 2 (ih_language h)).

Definition plain_identification (x : identification) : identification :=
  mkIdent (ident_type x)
    (option_map (fun c => mkIC (id_nation c) (plain_number (id_number c)) (option_map plain_text (id_authority c))
                            (id_issue c) (id_begin c) (id_expiry c)) (ident_card_part x))
    (option_map (fun h => mkIH (option_map plain_text (ih_surname h)) (option_map plain_text (ih_first_names h))
                            (option_map plain_date (ih_birth h)) (option_map plain_ia5 (ih_language h)))
       (ident_holder_part x)).

Lemma identification_kept cm x : ascii_charmaps cm -> identification_ok cm x ->
  kept append_identification (unmarshal_identification cm) plain_identification x.
Proof.
  destruct x as [t c h]. intros A ((c0 & Ec & Kn & Hn & Ha & Wi & Wb & We) & (h0 & Eh & Hs & Hf & Hd & Hl)).
  cbn [ident_type ident_card_part ident_holder_part] in *. subst c h.
  destruct c0 as [na nu au is' bg ex]. destruct h0 as [su fi bd la].
  cbn [id_nation id_number id_authority id_issue id_begin id_expiry ih_surname ih_first_names ih_birth ih_language] in *.
  destruct (coded_code _ _ in_nation Kn) as (cn & Mn & Un).
  pose proof (coded_not_unrecognized nation_numeric_table na in_nation eq_refl Kn) as Nn.
  destruct (number_kept _ _ Hn) as (Lu & yu & Uu & Pu).
  destruct (text_survives cm 35 _ A ltac:(lia) Ha) as (ba & ya & xa & -> & Aa & La & Ua & Pa).
  destruct (time_survives _ Wi) as (bi & Ei & Li & Ui & _).
  destruct (time_survives _ Wb) as (bb & Eb & Lb & Ub & _).
  destruct (time_survives _ We) as (be' & Ee & Le & Ue & _).
  destruct (text_survives cm 35 _ A ltac:(lia) Hs) as (bs & ys & xs & -> & As & Ls & Us & Ps).
  destruct (text_survives cm 35 _ A ltac:(lia) Hf) as (bf & yf & xf & -> & Af & Lf & Uf & Pf).
  destruct (date_survives _ Hd) as (bd' & yd & xd & -> & Ad & Ld & Ud & Pd).
  destruct (ia5_survives 2 _ ltac:(lia) Hl) as (bl & yl & xl & -> & Al & Ll & Ul & Pl).
  set (w := append_card_number nu) in *.
  exists ([cn] ++ w ++ ba ++ bi ++ bb ++ be' ++ bs ++ bf ++ bd' ++ bl). eexists. split; [|split].
  - unfold append_identification, append_card_identification, append_holder_identification.
    cbn [ident_card_part ident_holder_part id_nation id_number id_authority id_issue id_begin id_expiry
         ih_surname ih_first_names ih_birth ih_language].
    destruct (Z.eqb_spec na ENUM_UNRECOGNIZED); [contradiction|].
    rewrite Mn, Aa, Ei, Eb, Ee, As, Af, Ad, Al. cbn [bind]. fold w. rewrite <- !app_assoc. reflexivity.
  - clearbody w. unfold unmarshal_identification. rewrite !app_length, Lu, La, Li, Lb, Le, Ls, Lf, Ld, Ll.
    cbn [length Nat.add Nat.ltb Nat.leb negb guard bind]. pick.
    rewrite Un, Uu, Ua, Ui, Ub, Ue, Us, Uf, Ud, Ul. cbn [bind fst snd]. reflexivity.
  - unfold plain_identification.
    cbn [ident_type ident_card_part ident_holder_part option_map id_nation id_number id_authority id_issue id_begin id_expiry
         ih_surname ih_first_names ih_birth ih_language]. now rewrite Pu, Pa, Ps, Pf, Pd, Pl.
Qed.

(** ** Files made of records *)

Lemma survives_list {X} (ap : X -> res bytes) un plain n l :
  Forall (survives ap un plain n) l ->
  exists bs ys, Forall2 (fun r b => ap r = Ok b) l bs /\ Forall (fun b => length b = n) bs /\
    Forall2 (fun b y => un b = Ok y) bs ys /\ map plain ys = map plain l.
Proof.
  induction 1 as [|x l (b & y & A & L & U & P) H (bs & ys & As & Ls & Us & Ps)].
  - exists [], []. repeat split; constructor.
  - exists (b :: bs), (y :: ys). repeat split; try constructor; auto. cbn [map]. now rewrite P, Ps.
Qed.

Lemma pointer_written {X} (ap : X -> res bytes) size pointer raw l bs :
  (forall a b, ap a = Ok b -> length b = size) -> Forall2 (fun r b => ap r = Ok b) l bs ->
  append_pointer_file ap size pointer raw l = Ok (pointer ++ concat bs).
Proof. intros S H. apply pointer_file_plain; eauto. Qed.

Definition places_ok (x : places) : Prop := 0 <= ps_newest x < 256 /\ Forall place_ok (ps_records x).
Definition plain_places (x : places) : places := mkPlaces [] (ps_newest x) (map plain_place (ps_records x)).

Lemma collected {A B} (f : A -> res B) (d : A -> B) bs ys : Forall2 (fun b y => f b = Ok y) bs ys ->
  map (fun c => match f c with Ok p => p | _ => d c end) bs = ys.
Proof. induction 1 as [|b y bs ys E H IH]; [reflexivity|]. cbn [map]. now rewrite E, IH. Qed.

Lemma places_kept x : places_ok x -> kept append_places unmarshal_places plain_places x.
Proof.
  destruct x as [raw p l]. intros (Hp & H). cbn [ps_newest ps_records] in *.
  destruct (survives_list append_place unmarshal_place plain_place 10 l) as (bs & ys & As & Ls & Us & Ps).
  { eapply Forall_impl; [|exact H]. intros r. apply place_survives. }
  exists ([p] ++ concat bs). eexists. split; [|split].
  - cbn [append_places ps_newest ps_records ps_raw]. rewrite u8_small by auto.
    now apply pointer_written; [exact append_place_len|].
  - unfold unmarshal_places. cbn [List.app length Nat.ltb Nat.leb negb guard bind skipn nth].
    rewrite chunks_concat by (auto; lia). rewrite (collected _ _ _ _ Us). reflexivity.
  - unfold plain_places. cbn [ps_newest ps_records]. now rewrite Ps.
Qed.

Definition places_g2_ok (x : places_g2) : Prop := 0 <= ps2_newest x < 65536 /\ Forall place_g2_ok (ps2_records x).
Definition plain_places_g2 (x : places_g2) : places_g2 :=
  mkPlaces2 [] (ps2_newest x) (map plain_place_g2 (ps2_records x)).

Lemma places_g2_kept x : places_g2_ok x -> kept append_places_g2 unmarshal_places_g2 plain_places_g2 x.
Proof.
  destruct x as [raw p l]. intros (Hp & H). cbn [ps2_newest ps2_records] in *.
  destruct (survives_list append_place_g2 unmarshal_place_g2 plain_place_g2 21 l) as (bs & ys & As & Ls & Us & Ps).
  { eapply Forall_impl; [|exact H]. intros r. apply place_g2_survives. }
  pose proof (to_be_length 2 (u16 p)) as L2. pose proof (pointer_back p Hp) as B2.
  exists (to_be 2 (u16 p) ++ concat bs). eexists. split; [|split].
  - cbn [append_places_g2 ps2_newest ps2_records ps2_raw].
    now apply pointer_written; [exact append_place_g2_len|].
  - unfold unmarshal_places_g2. rewrite app_length, L2. cbn [Nat.add Nat.ltb Nat.leb negb guard bind].
    pick. rewrite Field.skipn_app_exact by auto. rewrite B2.
    rewrite chunks_concat by (auto; lia). rewrite (collected _ _ _ _ Us). reflexivity.
  - unfold plain_places_g2. cbn [ps2_newest ps2_records]. now rewrite Ps.
Qed.

Definition vehicles_ok (cm : Z -> Z -> Z) (x : vehicles) : Prop :=
  0 <= vs_newest x < 65536 /\ Forall (card_vehicle_ok cm) (vs_records x).
Definition plain_vehicles (x : vehicles) : vehicles :=
  mkVeh [] (vs_newest x) (map plain_card_vehicle (vs_records x)).

Lemma vehicles_kept cm x : ascii_charmaps cm -> vehicles_ok cm x ->
  kept append_vehicles (unmarshal_vehicles cm) plain_vehicles x.
Proof.
  destruct x as [raw p l]. intros A (Hp & H). cbn [vs_newest vs_records] in *.
  destruct (survives_list append_card_vehicle (unmarshal_card_vehicle cm) plain_card_vehicle 31 l) as (bs & ys & As & Ls & Us & Ps).
  { eapply Forall_impl; [|exact H]. intros r. now apply card_vehicle_survives. }
  pose proof (to_be_length 2 (u16 p)) as L2. pose proof (pointer_back p Hp) as B2.
  exists (to_be 2 (u16 p) ++ concat bs). eexists. split; [|split].
  - cbn [append_vehicles vs_newest vs_records vs_raw].
    now apply pointer_written; [exact append_card_vehicle_len|].
  - unfold unmarshal_vehicles. rewrite app_length, L2. cbn [Nat.add Nat.ltb Nat.leb negb guard bind].
    pick. rewrite Field.skipn_app_exact by auto. rewrite B2.
    rewrite chunks_concat by (auto; lia). apply map_res_ok in Us. rewrite Us. reflexivity.
  - unfold plain_vehicles. cbn [vs_newest vs_records]. now rewrite Ps.
Qed.

Definition vehicles_g2_ok (cm : Z -> Z -> Z) (x : vehicles_g2) : Prop :=
  0 <= vs2_newest x < 65536 /\ Forall (card_vehicle_g2_ok cm) (vs2_records x).
Definition plain_vehicles_g2 (x : vehicles_g2) : vehicles_g2 :=
  mkVeh2 [] (vs2_newest x) (map plain_card_vehicle_g2 (vs2_records x)).

Lemma vehicles_g2_kept cm x : ascii_charmaps cm -> vehicles_g2_ok cm x ->
  kept append_vehicles_g2 (unmarshal_vehicles_g2 cm) plain_vehicles_g2 x.
Proof.
  destruct x as [raw p l]. intros A (Hp & H). cbn [vs2_newest vs2_records] in *.
  destruct (survives_list append_card_vehicle_g2 (unmarshal_card_vehicle_g2 cm) plain_card_vehicle_g2 48 l) as (bs & ys & As & Ls & Us & Ps).
  { eapply Forall_impl; [|exact H]. intros r. now apply card_vehicle_g2_survives. }
  pose proof (to_be_length 2 (u16 p)) as L2. pose proof (pointer_back p Hp) as B2.
  exists (to_be 2 (u16 p) ++ concat bs). eexists. split; [|split].
  - cbn [append_vehicles_g2 vs2_newest vs2_records vs2_raw].
    now apply pointer_written; [exact append_card_vehicle_g2_len|].
  - unfold unmarshal_vehicles_g2. rewrite app_length, L2. cbn [Nat.add Nat.ltb Nat.leb negb guard bind].
    pick. rewrite Field.skipn_app_exact by auto. rewrite B2.
    rewrite chunks_concat by (auto; lia). apply map_res_ok in Us. rewrite Us. reflexivity.
  - unfold plain_vehicles_g2. cbn [vs2_newest vs2_records]. now rewrite Ps.
Qed.

Definition conditions_ok (x : conditions) : Prop := Forall condition_ok (co_records x).
Definition plain_conditions (x : conditions) : conditions := mkCond [] (co_records x).

Lemma collected_all {A B} (f : A -> res B) bs ys : Forall2 (fun b y => f b = Ok y) bs ys -> collect_ok f bs = ys.
Proof. induction 1 as [|b y bs ys E H IH]; [reflexivity|]. cbn [collect_ok]. now rewrite E, IH. Qed.

Lemma map_same {A} (l : list A) : map (fun x => x) l = l.
Proof. apply map_id. Qed.

Lemma conditions_kept x : conditions_ok x -> kept append_conditions unmarshal_conditions plain_conditions x.
Proof.
  destruct x as [raw l]. unfold conditions_ok. cbn [co_records]. intros H.
  destruct (survives_list append_spec_cond unmarshal_spec_cond (fun x => x) 5 l) as (bs & ys & As & Ls & Us & Ps).
  { eapply Forall_impl; [|exact H]. intros r. apply condition_survives. }
  rewrite !map_same in Ps. subst ys.
  exists (concat bs).
  assert (E : append_conditions (Some (mkCond raw l)) = Ok (concat bs)).
  { cbn [append_conditions co_records co_raw].
    now apply (pointer_written append_spec_cond 5 []); [exact append_spec_cond_len|]. }
  unfold unmarshal_conditions. destruct (Nat.eqb_spec (length (concat bs)) 0) as [E0|E0].
  - assert (bs = []) as ->. { destruct Ls as [|b bs Lb Ls]; [reflexivity|]. cbn [concat] in E0. rewrite app_length in E0. lia. }
    inversion Us; subst. eexists. split; [exact E|]. split; reflexivity.
  - eexists. split; [exact E|]. split; [reflexivity|].
    unfold plain_conditions. cbn [co_records]. rewrite chunks_concat by (auto; lia). now rewrite (collected_all _ _ _ Us).
Qed.

(** The second generation keeps the bytes behind the last record; fewer than five
    make no record. *)
Definition conditions_g2_ok (x : conditions_g2) : Prop :=
  0 <= co2_newest x < 65536 /\ Forall condition_ok (co2_records x) /\
  length (co2_raw x) <> 1%nat /\ (length (co2_raw x) < 2 + 5 * S (length (co2_records x)))%nat.
Definition plain_conditions_g2 (x : conditions_g2) : conditions_g2 := mkCond2 [] (co2_newest x) (co2_records x).

Lemma chunks_rest n cs r : (0 < n)%nat -> Forall (fun c => length c = n) cs -> (length r < n)%nat ->
  chunks n (concat cs ++ r) = cs.
Proof.
  intros N H R. induction H as [|c cs Hc H IH]; cbn [concat List.app].
  - now apply chunks_nil.
  - rewrite <- app_assoc. rewrite chunks_cons by (rewrite ?app_length; lia).
    rewrite Field.firstn_app_exact, Field.skipn_app_exact by auto. now rewrite IH.
Qed.

Lemma conditions_g2_kept x : conditions_g2_ok x ->
  kept append_conditions_g2 unmarshal_conditions_g2 plain_conditions_g2 x.
Proof.
  destruct x as [raw p l]. intros (Hp & H & N & R). cbn [co2_newest co2_records co2_raw] in *.
  destruct (survives_list append_spec_cond unmarshal_spec_cond (fun x => x) 5 l) as (bs & ys & As & Ls & Us & Ps).
  { eapply Forall_impl; [|exact H]. intros r. apply condition_survives. }
  rewrite !map_same in Ps. subst ys.
  pose proof (to_be_length 2 (u16 p)) as L2. pose proof (pointer_back p Hp) as B2.
  assert (E : append_conditions_g2 (Some (mkCond2 raw p l)) =
    Ok (to_be 2 (u16 p) ++ concat bs ++ skipn (2 + 5 * length l) raw)).
  { apply edited_conditions_g2_ok; [exact N|]. exists bs. split; [exact As|reflexivity]. }
  eexists. eexists. split; [exact E|]. split.
  - unfold unmarshal_conditions_g2. rewrite app_length, L2. cbn [Nat.add Nat.ltb Nat.leb negb guard bind].
    pick. rewrite Field.skipn_app_exact by auto. rewrite B2.
    rewrite chunks_rest by (auto; try lia; rewrite skipn_length; lia).
    rewrite (collected_all _ _ _ Us). reflexivity.
  - reflexivity.
Qed.

Lemma two_ahead p (b : bytes) k n : length (to_be 2 p ++ b) = (2 + k * n)%nat -> (0 < n)%nat ->
  ((length (to_be 2 p ++ b) - 2) mod n =? 0)%nat = true.
Proof.
  intros -> N. replace (2 + k * n - 2)%nat with (k * n)%nat by lia. rewrite Nat.mod_mul by lia. reflexivity.
Qed.

Definition gnss_places_ok (x : gnss_places) : Prop :=
  0 <= gps_newest x < 65536 /\ Forall gnss_record_ok (gps_records x).

Lemma token_size : (18 <= max_token_size)%nat /\ (24 <= max_token_size)%nat.
Proof.
  pose proof start_eq. pose proof start_le_max. lia.
Qed.

Lemma gnss_places_kept x : gnss_places_ok x -> kept append_gnss_places unmarshal_gnss_places (fun x => x) x.
Proof.
  destruct x as [p l]. intros (Hp & H). cbn [gps_newest gps_records] in *.
  destruct (survives_list append_gnss_record unmarshal_gnss_record (fun x => x) 18 l) as (bs & ys & As & Ls & Us & Ps).
  { eapply Forall_impl; [|exact H]. intros r. apply gnss_record_survives. }
  rewrite !map_same in Ps. subst ys.
  pose proof (to_be_length 2 (u16 p)) as L2. pose proof (pointer_back p Hp) as B2.
  destruct (scan_fixed_chunks 18 (concat bs)) as (ts & Et & Mt); [split; [lia|apply token_size]|].
  rewrite chunks_concat in Mt by (auto; lia).
  exists (to_be 2 (u16 p) ++ concat bs). eexists. split; [|split].
  - cbn [append_gnss_places gps_newest gps_records].
    assert (C : concat_res append_gnss_record l = Ok (concat bs)) by (apply concat_res_ok; eauto).
    rewrite C. reflexivity.
  - unfold unmarshal_gnss_places.
    assert (L : length (to_be 2 (u16 p) ++ concat bs) = (2 + length bs * 18)%nat)
      by (rewrite app_length, L2, (concat_length_uniform 18) by auto; reflexivity).
    rewrite (two_ahead _ _ _ _ L) by lia. rewrite L. cbn [Nat.add Nat.ltb Nat.leb negb guard bind].
    pick. rewrite Field.skipn_app_exact by auto. rewrite B2, Et. cbn [bind].
    assert (M : map_res (fun p => unmarshal_gnss_record (fst p)) ts = Ok l).
    { apply map_res_ok. revert Us. rewrite <- Mt. clear. revert l. induction ts as [|t ts IH]; intros l H;
        cbn [map] in H; inversion H; subst; constructor; auto. }
    rewrite M. reflexivity.
  - reflexivity.
Qed.

(** At most 409 records, which is what the scanner's first buffer holds: the device
    and version bytes are slices of that buffer. *)
Definition units_used_ok (x : units_used) : Prop :=
  0 <= uu_newest x < 65536 /\ Forall unit_ok (uu_records x) /\ (length (uu_records x) <= 409)%nat.

Lemma units_used_kept x : units_used_ok x -> kept append_units_used unmarshal_units_used (fun x => x) x.
Proof.
  destruct x as [p l]. intros (Hp & H & B). cbn [uu_newest uu_records] in *.
  destruct (survives_list append_unit_record (fun c => unmarshal_unit_record (c, c)) (fun x => x) 10 l) as (bs & ys & As & Ls & Us & Ps).
  { eapply Forall_impl; [|exact H]. intros r. apply unit_survives. }
  rewrite !map_same in Ps. subst ys.
  pose proof (to_be_length 2 (u16 p)) as L2. pose proof (pointer_back p Hp) as B2.
  assert (Lb : length bs = length l) by (clear - As; induction As; cbn [length]; auto).
  assert (Lc : length (concat bs) = (length bs * 10)%nat) by (now apply concat_length_uniform).
  assert (Et : scan_fixed 10 (concat bs) = Ok (map (fun c => (c, c)) bs)).
  { rewrite scan_safe_unchanged; try lia. { now rewrite chunks_concat by (auto; lia). }
    apply (scan_safe_whole 10 _ (length bs)); lia. }
  exists (to_be 2 (u16 p) ++ concat bs). eexists. split; [|split].
  - cbn [append_units_used uu_newest uu_records].
    assert (C : concat_res append_unit_record l = Ok (concat bs)) by (apply concat_res_ok; eauto).
    rewrite C. reflexivity.
  - unfold unmarshal_units_used.
    assert (L : length (to_be 2 (u16 p) ++ concat bs) = (2 + length bs * 10)%nat)
      by (rewrite app_length, L2, Lc; reflexivity).
    rewrite (two_ahead _ _ _ _ L) by lia. rewrite L. cbn [Nat.add Nat.ltb Nat.leb negb guard bind].
    pick. rewrite Field.skipn_app_exact by auto. rewrite B2, Et. cbn [bind].
    assert (M : map_res unmarshal_unit_record (map (fun c => (c, c)) bs) = Ok l).
    { apply map_res_ok. revert Us. clear. revert l. induction bs as [|t ts IH]; intros l H;
        inversion H; subst; cbn [map]; constructor; auto. }
    rewrite M. reflexivity.
  - reflexivity.
Qed.

(** Invalid records are slices of the scanner's buffer too: 170 records fit. *)
Definition events_ok (cm : Z -> Z -> Z) (l : list event) : Prop :=
  Forall (event_ok cm) l /\ (Forall (fun r => ev_valid r = true) l \/ (length l <= 170)%nat).

Lemma events_kept cm l : ascii_charmaps cm -> events_ok cm l ->
  kept append_events (unmarshal_events cm) (map plain_event) l.
Proof.
  intros A (H & V).
  assert (E : exists bs, Forall2 (fun r b => append_event r = Ok b) l bs /\ Forall (fun b => length b = 24%nat) bs /\
    Forall2 (fun r b => forall fin, (ev_valid r = false -> fin = b) ->
      exists y, unmarshal_event cm (b, fin) = Ok y /\ plain_event y = plain_event r) l bs).
  { clear V. induction H as [|r l Hr H (bs & As & Ls & Us)]; [exists []; repeat split; constructor|].
    destruct (event_survives cm r A Hr) as (b & Ab & Lb & Ub). exists (b :: bs). repeat split; constructor; auto. }
  destruct E as (bs & As & Ls & Us).
  assert (Lb : length bs = length l) by (clear - As; induction As; cbn [length]; auto).
  assert (Lc : length (concat bs) = (length bs * 24)%nat) by (now apply concat_length_uniform).
  assert (T : exists ts, scan_fixed 24 (concat bs) = Ok ts /\ map fst ts = bs /\
    (Forall (fun r => ev_valid r = true) l \/ map snd ts = bs)).
  { destruct V as [V|V].
    - destruct (scan_fixed_chunks 24 (concat bs)) as (ts & Et & Mt); [split; [lia|apply token_size]|].
      rewrite chunks_concat in Mt by (auto; lia). exists ts. auto.
    - exists (map (fun c => (c, c)) bs). rewrite scan_safe_unchanged; try lia.
      + rewrite chunks_concat by (auto; lia). rewrite !map_map. cbn [fst snd]. rewrite map_id. auto.
      + apply (scan_safe_whole 24 _ (length bs)); lia. }
  destruct T as (ts & Et & Mt & Mv).
  assert (M : exists ys, map_res (unmarshal_event cm) ts = Ok ys /\ map plain_event ys = map plain_event l).
  { clear - Us Mt Mv. revert ts Mt Mv. induction Us as [|r b l bs Hr H IH]; intros ts Mt Mv.
    - destruct ts; [|discriminate]. exists []. auto.
    - destruct ts as [|[t f] ts]; [discriminate|]. cbn [map fst snd] in *. injection Mt as -> Mt.
      destruct (Hr f) as (y & Uy & Py).
      { destruct Mv as [Mv|Mv]; [inversion Mv; congruence|]. injection Mv as -> _. auto. }
      destruct (IH ts Mt) as (ys & Uys & Pys).
      { destruct Mv as [Mv|Mv]; [left; inversion Mv; auto|right; now injection Mv]. }
      exists (y :: ys). cbn [map_res map]. rewrite Uy. cbn [bind]. rewrite Uys, Py, Pys. split; reflexivity. }
  destruct M as (ys & Uy & Py).
  exists (concat bs), ys. split; [|split].
  - unfold append_events. cbn [odflt]. apply concat_res_ok. eauto.
  - unfold unmarshal_events. rewrite Et. cbn [bind]. exact Uy.
  - exact Py.
Qed.

(** ** Driver activity *)

Definition change_ok (c : activity_change) : Prop :=
  (ac_slot c = 2 \/ ac_slot c = 3) /\ 2 <= ac_activity c <= 5 /\ 0 <= ac_minutes c < 2048 /\
  (ac_raw c = None \/ exists r, ac_raw c = Some r /\ length r = 2%nat) /\
  change_bits c <> 0 /\ change_bits c <> 65535.

Definition plain_change (c : activity_change) : activity_change :=
  mkAC None (ac_slot c) (ac_crew c) (ac_inserted c) (ac_activity c) (ac_minutes c).

Lemma change_written c : change_ok c -> exists b0 b1 y,
  append_activity_change c = Ok [b0; b1] /\ byte_ok b0 /\ byte_ok b1 /\ (be [b0; b1] =? 0) || (be [b0; b1] =? 65535) = false /\
  unmarshal_activity_change [b0; b1] = Ok y /\ plain_change y = plain_change c.
Proof.
  destruct c as [r s w i a m]. intros (Hs & Ha & Hm & Hr & N0 & N1).
  unfold change_bits in N0, N1. cbn [ac_raw ac_slot ac_crew ac_inserted ac_activity ac_minutes] in *.
  set (v := activity_bits (s - 2) (if w then 1 else 0) (if i then 0 else 1) (a - 2) m) in *.
  assert (V : 0 <= v < 65536) by (unfold v, activity_bits; destruct w, i; lia).
  exists (v / 256), (v mod 256).
  destruct C32_activity_change_round_trip as (_ & D & _).
  destruct (D (s - 2) (if w then 1 else 0) (if i then 0 else 1) (a - 2) m ltac:(lia)
    ltac:(destruct w; auto) ltac:(destruct i; auto) ltac:(lia) ltac:(lia)) as (raw & E).
  cbv zeta in E. fold v in E. eexists. split; [|split; [unfold byte_ok; lia|split; [unfold byte_ok; lia|split; [|split; [exact E|]]]]].
  - unfold append_activity_change. cbn [ac_raw ac_slot ac_crew ac_inserted ac_activity ac_minutes].
    assert (C : exists x, raw_canvas 2 r = Ok x).
    { destruct Hr as [->|(x & -> & L)]; cbn [raw_canvas]; [eauto|]. rewrite L. cbn. eauto. }
    destruct C as (x & ->). cbn [bind].
    assert (A : marshal_enum card_slot_number_table s = Ok (s - 2)) by (destruct Hs as [-> | ->]; reflexivity).
    assert (B : marshal_enum driver_activity_value_table a = Ok (a - 2)).
    { assert (Q : a = 2 \/ a = 3 \/ a = 4 \/ a = 5) by lia. destruct Q as [-> | [-> | [-> | ->]]]; reflexivity. }
    rewrite A, B. cbn [bind]. f_equal.
    replace ((s - 2) mod 2 * 32768 + (if w then 16384 else 0) + (if i then 0 else 8192) + (a - 2) mod 4 * 2048 +
             u16 m mod 2048) with v.
    + cbv [to_be List.app]. f_equal. lia.
    + unfold v, activity_bits, u16. destruct w, i; lia.
  - change (be [v / 256; v mod 256]) with (v / 256 * 256 + v mod 256).
    replace (v / 256 * 256 + v mod 256) with v by lia.
    apply orb_false_iff. split; now apply Z.eqb_neq.
  - unfold plain_change. cbn [ac_raw ac_slot ac_crew ac_inserted ac_activity ac_minutes].
    f_equal; try lia; destruct w, i; reflexivity.
Qed.

Lemma changes_written l k : Forall change_ok l -> exists e ys,
  concat_res append_activity_change l = Ok e /\ length e = (2 * length l)%nat /\ bytes_ok e /\
  parse_changes (e ++ zeros k) = Ok ys /\ map plain_change ys = map plain_change l.
Proof.
  induction 1 as [|c l Hc H (e & ys & A & L & B & P & M)].
  - exists [], []. repeat split; try constructor. apply parse_changes_zeros.
  - destruct (change_written c Hc) as (b0 & b1 & y & Ac & B0 & B1 & K & U & Py).
    exists (b0 :: b1 :: e), (y :: ys). cbn [concat_res]. rewrite Ac, A. cbn [bind List.app length].
    split; [reflexivity|]. split; [lia|]. split; [now rewrite !bytes_ok_cons|].
    cbn [parse_changes]. rewrite K, U, P. cbn [bind map]. now rewrite Py, M.
Qed.

(** A day with a four-digit counter; its length is left open, or leaves room for
    the changes. *)
Definition day_ok (r : day) : Prop :=
  day_valid r = true /\ day_raw r = [] /\ writable_time (day_date r) /\
  (exists v, day_counter r = Some (mkBcd v 2) /\ 0 <= v < 10000) /\
  0 <= day_distance r < 65536 /\ Forall change_ok (day_changes r) /\
  (day_len r = 0 \/ 12 + 2 * Z.of_nat (length (day_changes r)) <= day_len r) /\ day_size r < 65536.

(** The lengths in the header are computed by the writer if left open. *)
Definition plain_day (r : day) : day :=
  mkDay (day_valid r) (day_raw r) 0 0 (day_date r) (day_counter r) (day_distance r) (map plain_change (day_changes r)).

Lemma be16_two v b : 0 <= v < 65536 -> be16 (to_be 2 v ++ b) 0 = v.
Proof.
  intros H. assert (L : length (to_be 2 v) = 2%nat) by apply to_be_length.
  rewrite <- be_sub2 by (rewrite app_length; lia).
  rewrite sub_head by exact L. rewrite be_to_be. now apply Z.mod_small.
Qed.

Lemma be16_skip (a b : bytes) i : length a = i -> (2 <= length b)%nat -> be16 (a ++ b) i = be16 b 0.
Proof.
  intros L H. rewrite <- !be_sub2 by (rewrite ?app_length; lia).
  rewrite (sub_at a b i 2 i) by lia. now rewrite Nat.sub_diag.
Qed.

Lemma day_written r prev : day_ok r -> (Z.of_nat prev < 65536) -> exists b y,
  record_size r = Ok (length b) /\ Z.of_nat (length b) = day_size r /\ (12 <= length b)%nat /\
  marshal_day r prev (length b) = Ok b /\ bytes_ok b /\
  parse_day b = Ok y /\ plain_day y = plain_day r /\ be16 b 0 = Z.of_nat prev /\ be16 b 2 = Z.of_nat (length b).
Proof.
  destruct r as [va raw dp dl t c d cs]. intros (V & Er & Wt & (v & Ec & Hv) & Hd & Hc & Hl & Hs) Hp.
  cbn [day_valid day_raw day_date day_counter day_distance day_changes day_len] in *. subst va raw c.
  set (n := Z.to_nat (day_size (mkDay true [] dp dl t (Some (mkBcd v 2)) d cs))).
  assert (N : Z.of_nat n = day_size (mkDay true [] dp dl t (Some (mkBcd v 2)) d cs) /\ (12 + 2 * length cs <= n)%nat).
  { unfold n, day_size. cbn [day_len day_changes]. destruct (Z.ltb_spec 0 dl); lia. }
  destruct N as [N Ln].
  destruct (time_survives _ Wt) as (bt & Et & Lt & Ut & _).
  destruct (bcd_survives v Hv) as (bc & Eb & Lc & Uc).
  destruct (changes_written cs (n - (12 + 2 * length cs)) Hc) as (e & ys & Ae & Le & Be & Pe & Me).
  set (hp := to_be 2 (Z.of_nat prev)). set (hn := to_be 2 (Z.of_nat n)). set (hd := to_be 2 d).
  assert (Lp : length hp = 2%nat) by apply to_be_length. assert (Lh : length hn = 2%nat) by apply to_be_length.
  assert (Ld : length hd = 2%nat) by apply to_be_length.
  set (z := zeros (n - (12 + 2 * length cs))) in *.
  assert (Lz : length z = (n - (12 + 2 * length cs))%nat) by apply zeros_length.
  assert (Lb : length (hp ++ hn ++ bt ++ bc ++ hd ++ e ++ z) = n).
  { rewrite !app_length, Lp, Lh, Lt, Lc, Ld, Le, Lz. lia. }
  exists (hp ++ hn ++ bt ++ bc ++ hd ++ e ++ z). eexists. rewrite Lb.
  split; [unfold record_size; cbn [day_valid]; reflexivity|]. split; [exact N|]. split; [lia|].
  split.
  { unfold marshal_day. cbn [day_date day_counter day_changes day_distance]. rewrite Et, Eb, Ae. cbn [bind].
    fold hp hn hd.
    replace (length (hp ++ hn ++ bt ++ bc ++ hd ++ e)) with (12 + 2 * length cs)%nat
      by (rewrite !app_length, Lp, Lh, Lt, Lc, Ld, Le; lia).
    fold z. rewrite <- !app_assoc. reflexivity. }
  split.
  { rewrite !bytes_ok_app. repeat split; auto; try (apply to_be_ok);
      try (unfold z; apply bytes_ok_zeros).
    - apply (append_time_length _ _ Et).
    - unfold append_bcd_string in Eb. cbn [bcd_value bcd_length] in Eb.
      destruct (v <? 0); [discriminate|]. destruct (2 <=? 0); [discriminate|].
      apply append_bcd_length in Eb. apply Eb. }
  split; [|split; [|split]].
  - unfold parse_day. rewrite Lb. destruct (Nat.ltb_spec n 12); [lia|]. cbn [negb guard bind]. pick.
    rewrite Ut, Uc. cbn [bind].
    replace (skipn 12 (hp ++ hn ++ bt ++ bc ++ hd ++ e ++ z)) with (e ++ z).
    + rewrite Pe. cbn [bind]. reflexivity.
    + symmetry. replace (hp ++ hn ++ bt ++ bc ++ hd ++ e ++ z) with ((hp ++ hn ++ bt ++ bc ++ hd) ++ e ++ z)
        by (rewrite <- !app_assoc; reflexivity).
      apply Field.skipn_app_exact. rewrite !app_length, Lp, Lh, Lt, Lc, Ld. reflexivity.
  - unfold plain_day. cbn [day_valid day_raw day_date day_counter day_distance day_changes]. rewrite Me. f_equal.
    unfold hd. rewrite be_to_be. now apply Z.mod_small.
  - unfold hp. apply be16_two. lia.
  - rewrite be16_skip by (auto; rewrite !app_length; lia). unfold hn. apply be16_two. lia.
Qed.

Lemma days_written : forall l prev, Forall day_ok l -> Z.of_nat prev < 65536 -> exists bs,
  enc_days prev l bs /\ map plain_day (map day_of bs) = map plain_day l /\ chained (Z.of_nat prev) bs /\
  map (fun b => Z.of_nat (length b)) bs = map day_size l /\ Forall bytes_ok bs.
Proof.
  induction l as [|r l IH]; intros prev H P; [exists []; repeat split; constructor|].
  inversion H as [|? ? Hr Hl]; subst.
  destruct (day_written r prev Hr P) as (b & y & Sz & Ls & L12 & M & B & U & Py & P0 & P2).
  assert (Lb : Z.of_nat (length b) < 65536) by (rewrite Ls; apply Hr).
  destruct (IH (length b) Hl Lb) as (bs & E & D & C & Ss & Bs).
  exists (b :: bs). cbn [enc_days map chained].
  split; [split; [apply Hr|auto]|]. split.
  { f_equal; auto. unfold day_of. now rewrite U. }
  split; [split; [lia|auto]|]. split; [f_equal; auto|]. constructor; auto.
Qed.

(** An activity file built from its days, which start at the beginning of the
    ring, so the newest one starts behind all the others; or one as it was read. *)
Inductive activity_ok : activity -> Prop :=
| activity_built o p l : l <> [] -> (length l <= 365)%nat -> Forall day_ok l -> 0 <= o < 65536 ->
    p = fold_right Z.add 0 (map day_size (removelast l)) -> p < 65536 -> activity_ok (mkAct o p [] l)
| activity_read d x : bytes_ok d -> unmarshal_activity d = Ok x -> activity_ok x.

Definition plain_activity (x : activity) : activity :=
  mkAct (act_oldest x) (act_newest x) [] (map plain_day (act_days x)).

Lemma newest_sum (bs : list bytes) : forall l, map (fun b => Z.of_nat (length b)) bs = map day_size l ->
  Z.of_nat (list_sum (map (@length Z) (removelast bs))) = fold_right Z.add 0 (map day_size (removelast l)).
Proof.
  induction bs as [|x bs IH]; intros [|y m] Q; try discriminate; [reflexivity|].
  cbn [map] in Q. injection Q as Q1 Q2.
  destruct bs as [|x' bs], m as [|y' m]; try discriminate; [reflexivity|].
  specialize (IH (y' :: m) Q2).
  change (removelast (x :: x' :: bs)) with (x :: removelast (x' :: bs)).
  change (removelast (y :: y' :: m)) with (y :: removelast (y' :: m)).
  change (list_sum (map (@length Z) (x :: removelast (x' :: bs)))) with
    (length x + list_sum (map (@length Z) (removelast (x' :: bs))))%nat.
  cbn [map fold_right] in *. lia.
Qed.

Lemma activity_kept x : activity_ok x -> kept append_activity unmarshal_activity plain_activity x.
Proof.
  intros [o p l N L H Ho Ep Hp|d x' B U].
  - destruct (days_written l 0 H ltac:(lia)) as (bs & E & D & C & Ss & Bs).
    assert (NB : bs <> []) by (intros ->; destruct l; [congruence|discriminate Ss]).
    destruct (chained_ring bs [] 0 NB C) as [R NA]. cbn [List.app length Nat.add] in R, NA.
    assert (Ln : Z.of_nat (newest_at (length (concat bs)) 0 bs) = p) by (rewrite NA, Ep; now apply newest_sum).
    assert (Lb : (length bs <= 365)%nat).
    { rewrite <- (map_length (fun b => Z.of_nat (length b)) bs), Ss, map_length. exact L. }
    assert (HB : bytes_ok (concat bs)) by (apply Forall_concat; exact Bs).
    assert (LC : (length (concat bs) =? 0)%nat = false).
    { destruct bs as [|b bs]; [congruence|]. destruct C as (LC & _). cbn. apply Nat.eqb_neq. rewrite app_length. lia. }
    pose proof (C45_ring_partial (concat bs) 0 0 bs HB R NB Lb (chain_end_first _ _)) as RP. rewrite Ln in RP.
    assert (P0 : 0 <= p) by lia.
    exists (to_be 2 o ++ to_be 2 p ++ concat bs), (mkAct o p (concat bs) (map day_of bs)). split; [|split].
    + unfold append_activity. cbn [act_raw act_days act_oldest act_newest length Nat.ltb Nat.leb].
      rewrite (build_ring_eq _ _ E). reflexivity.
    + pose proof (to_be_length 2 o) as Lo. pose proof (to_be_length 2 p) as Lp.
      unfold unmarshal_activity. rewrite !app_length, Lo, Lp. cbn [Nat.add Nat.ltb Nat.leb negb guard bind]. pick.
      rewrite !be_to_be, !Z.mod_small by (change (256 ^ Z.of_nat 2) with 65536; lia).
      replace (skipn 4 (to_be 2 o ++ to_be 2 p ++ concat bs)) with (concat bs).
      * rewrite LC, RP. reflexivity.
      * symmetry. rewrite app_assoc. apply Field.skipn_app_exact. rewrite app_length, Lo, Lp. reflexivity.
    + unfold plain_activity. cbn [act_oldest act_newest act_days]. now rewrite D.
  - exists d, x'. split; [now apply C47_activity_verbatim|auto].
Qed.
