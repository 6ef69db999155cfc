(** C30 for whole files: the text in every message of an accepted file.

    [clean_utf8] (Props_String) is the specification; [accepted_covers] and
    [dumped] (Props_Driver, P_Dump) describe accepted cards. *)

From Verif Require Import Base Enums Chunks DDScalar P_Scalar Utf8 P_Utf8 DDString P_String DDRecord Props_String.
From Verif Require Import Scanner P_Scanner RawTypes RawCard P_RawCard Infer CardBasic CardRecords P_Records CardIdent.
From Verif Require Import CardActivity Asn1 Cert P_Cert DriverCard P_Driver Vu P_Vu Verify Api P_Dump Props_RawCard Props_Dump Props_Driver.
From Verif Require Import Props_Framed.
From Verif Require Props_Vu Props_Records Props_Download.

(** ** Where the text is

    All fields of type [string] in the messages of proto wayplatform.connect.tachograph:
    StringValue.value, Ia5StringValue.value, the references and the object
    identifier in a certificate and, apart from the others, the
    vehicle_identification_number of CardVehicleRecordG2. *)

Definition in_text (o : option string_value) : list bytes := match o with Some s => [sv_value s] | None => [] end.
Definition in_ascii (o : option ia5) : list bytes := match o with Some s => [ia5_value s] | None => [] end.
Definition in_plate (o : option vreg) : list bytes := match o with Some v => in_text (DDString.vr_number v) | None => [] end.
Definition in_driver (o : option driver_id) : list bytes := match o with Some x => in_ascii (di_number x) | None => [] end.
Definition in_owner (x : owner_id) : list bytes :=
  in_ascii (oi_number x) ++ in_ascii (oi_consecutive x) ++ in_ascii (oi_replacement x) ++ in_ascii (oi_renewal x).
Definition in_full_number (o : option full_card_number) : list bytes :=
  match o with
  | Some n => in_driver (fcn_driver n) ++ match fcn_owner n with Some x => in_owner x | None => [] end
  | None => []
  end.
Definition in_card_number (n : card_number) : list bytes :=
  match n with
  | CN_none => []
  | CN_driver x => in_ascii (dn_number x) ++ in_ascii (dn_replacement x) ++ in_ascii (dn_renewal x)
  | CN_owner x => in_owner x
  end.

Definition in_identification (x : identification) : list bytes :=
  match ident_card_part x with
  | Some c => in_card_number (id_number c) ++ in_text (id_authority c)
  | None => []
  end ++
  match ident_holder_part x with
  | Some h => in_text (ih_surname h) ++ in_text (ih_first_names h) ++ in_ascii (ih_language h)
  | None => []
  end.

Definition in_icc (x : icc) : list bytes :=
  in_ascii (icc_approval x) ++
  match icc_embedder x with Some e => in_ascii (em_country e) ++ in_ascii (em_module e) | None => [] end.

Definition in_control (x : control_activity) : list bytes :=
  match ca_card x with Some g => in_full_number (cng_number g) | None => [] end ++ in_plate (ca_vehicle x).

Definition in_rsa (x : rsa_cert) : list bytes := [rsa_chr x; rsa_car x].
Definition in_ecc (x : ecc_cert) : list bytes :=
  [ecc_car x; ecc_chr x] ++ match ecc_pk x with Some k => [key_oid k] | None => [] end.

(** The text of a driver card's field. *)
Definition texts (s : slot) : content s -> list bytes :=
  match s return content s -> list bytes with
  | S_icc => in_icc
  | S_ic => fun _ => []
  | S_app_id => fun _ => []
  | S2_app_id => fun _ => []
  | S_licence | S2_licence => fun x => in_text (dl_authority x) ++ in_ascii (dl_number x)
  | S_identification | S2_identification => in_identification
  | S_events | S2_events | S_faults | S2_faults => fun l => flat_map (fun e => in_plate (ev_vehicle e)) l
  | S_activity | S2_activity => fun _ => []
  | S_vehicles => fun x => flat_map (fun v => in_plate (cv_reg v)) (vs_records x)
  | S2_vehicles => fun x => flat_map (fun v => in_plate (cv2_reg v)) (vs2_records x)
  | S_places => fun _ => []
  | S2_places => fun _ => []
  | S_usage | S2_usage => fun x => in_plate (cu_vehicle x)
  | S_control | S2_control => in_control
  | S_conditions => fun _ => []
  | S2_conditions => fun _ => []
  | S_download | S2_download => fun _ => []
  | S2_units => fun _ => []
  | S2_gnss => fun _ => []
  | S2_app_v2 => fun _ => []
  | S_card_cert | S_ca_cert => in_rsa
  | S2_ma_cert | S2_sign_cert | S2_ca_cert | S2_link_cert => in_ecc
  end.

(** The vehicle identification numbers of its vehicles (second generation). *)
Definition vins (s : slot) : content s -> list bytes :=
  match s return content s -> list bytes with
  | S2_vehicles => fun x => map cv2_vin (vs2_records x)
  | _ => fun _ => []
  end.

(** The text of a vehicle unit file. *)
Definition in_lock (l : company_lock) : list bytes :=
  in_text (cl_name l) ++ in_text (cl_address l) ++ in_full_number (cl_card l).
Definition in_overview (o : overview_gen1) : list bytes :=
  in_ascii (ov_vin o) ++ in_plate (ov_reg o) ++
  flat_map (fun a => in_full_number (da_card a) ++ in_text (da_name a)) (ov_downloads o) ++
  flat_map in_lock (ov_locks o) ++ flat_map (fun c => in_full_number (vc_card c)) (ov_controls o).
Definition in_insertion (r : card_iw) : list bytes :=
  match iw_holder r with Some h => in_text (hn_surname h) ++ in_text (hn_first_names h) | None => [] end ++
  in_full_number (iw_card r) ++
  match iw_previous r with Some p => in_plate (pv_reg p) | None => [] end.
Definition vu_texts (v : vu_file) : list bytes :=
  match v with
  | VuGen1 f =>
      match g1_overview f with Some o => in_overview o | None => [] end ++
      flat_map (fun a => flat_map in_insertion (ac_iw a)) (g1_activities f)
  | VuGen2V1 _ | VuGen2V2 _ => []
  end.

(** ** Parts *)

Notation clean := (Forall clean_utf8).

Lemma text_part cm d s : unmarshal_string_value cm d = Ok s -> clean (in_text (Some s)).
Proof. intros E. constructor; [|constructor]. now apply clean_text_clean_utf8, (string_value_clean cm d). Qed.

Lemma ascii_part d s : bytes_ok d -> unmarshal_ia5 d = Ok s -> clean (in_ascii (Some s)).
Proof. intros B E. constructor; [|constructor]. now apply clean_text_clean_utf8, (ia5_clean d). Qed.

Lemma plate_part cm d v : unmarshal_vreg cm d = Ok v -> clean (in_plate (Some v)).
Proof.
  intros E. unfold unmarshal_vreg in E. do 2 inv_bind E. apply Ok_inj in E. subst v.
  cbn [in_plate DDString.vr_number]. eapply text_part. eassumption.
Qed.

Lemma owner_part d x : bytes_ok d -> unmarshal_owner_id d = Ok x -> clean (in_owner x).
Proof.
  intros B E. unfold unmarshal_owner_id in E. repeat inv_bind E. apply Ok_inj in E. subst x. unfold in_owner.
  cbn [oi_number oi_consecutive oi_replacement oi_renewal].
  rewrite !Forall_app. repeat split; (eapply ascii_part; [|eassumption]); now apply bytes_ok_sub.
Qed.

Lemma number_part d n : bytes_ok d -> unmarshal_full_card_number d = Ok n -> clean (in_full_number (Some n)).
Proof.
  intros B E. unfold unmarshal_full_card_number in E. do 2 inv_bind E.
  destruct (_ =? _); [|destruct (_ || _); [|discriminate]]; inv_bind E; apply Ok_inj in E; subst n; cbn [in_full_number fcn_driver fcn_owner in_driver].
  - rewrite app_nil_r. match goal with H : unmarshal_driver_id _ = _ |- _ => unfold unmarshal_driver_id in H; do 2 inv_bind H; apply Ok_inj in H; subst end.
    cbn [di_number]. eapply ascii_part; [|eassumption]. now repeat apply bytes_ok_sub.
  - eapply owner_part; [|eassumption]. now apply bytes_ok_sub.
Qed.

(** Decimal numbers and object identifiers. *)
Definition numeral (b : Z) : Prop := 48 <= b <= 57.

Lemma ascii_clean l : Forall (fun b => 33 <= b <= 126) l -> clean_utf8 l.
Proof.
  intros H. exists l. split; [|split; [|split]].
  - eapply Forall_impl; [|exact H]. cbv beta. intros. lia.
  - induction H as [|b l B H IH]; [reflexivity|]. cbn [map concat]. rewrite <- IH.
    unfold encode_rune. replace (scalarb b) with true by (unfold scalarb; lia). cbv zeta.
    destruct (Z.ltb_spec b 128); [reflexivity|lia].
  - intros r rest ->. apply Forall_inv in H. unfold padding_rune. lia.
  - intros r front ->. apply Forall_app in H as [_ H]. apply Forall_inv in H. unfold padding_rune. lia.
Qed.

Lemma dec_ascii v : 0 <= v -> Forall numeral (dec v).
Proof.
  intros H. unfold dec. apply itoa_spec in H as (D & _). rewrite Forall_map. eapply Forall_impl; [|exact D].
  unfold numeral. cbv beta. intros. lia.
Qed.

Lemma dec_clean v : 0 <= v -> clean_utf8 (dec v).
Proof. intros H. apply ascii_clean. eapply Forall_impl; [|exact (dec_ascii v H)]. unfold numeral. cbv beta. intros. lia. Qed.

Lemma oid_clean o : Forall (fun v => 0 <= v) o -> clean_utf8 (oid_string o).
Proof.
  intros H. apply ascii_clean. induction o as [|v [|w o] IH]; [constructor| |];
    apply Forall_cons_iff in H as [V H]; pose proof (dec_ascii v V) as D.
  - cbn [oid_string]. eapply Forall_impl; [|exact D]. unfold numeral. cbv beta. intros. lia.
  - change (oid_string (v :: w :: o)) with (dec v ++ 46 :: oid_string (w :: o)). apply Forall_app. split.
    + eapply Forall_impl; [|exact D]. unfold numeral. cbv beta. intros. lia.
    + constructor; [lia|]. now apply IH.
Qed.

Lemma base128_pos : forall d n first acc v t, 0 <= acc -> base128 n first acc d = Ok (v, t) -> 0 <= v.
Proof.
  induction d as [|b d IH]; intros n first acc v t A E; [discriminate|]. cbn [base128] in E.
  destruct n; [discriminate|]. destruct (_ && _); [discriminate|]. cbv zeta in E.
  pose proof (Z.mod_pos_bound b 128 ltac:(lia)).
  destruct (_ <? _); [destruct (_ <? _); [discriminate|]; apply Ok_inj in E; injection E as <- _; lia|].
  apply IH in E; auto. lia.
Qed.

Lemma oid_tail_pos : forall f d vs, oid_tail f d = Ok vs -> Forall (fun v => 0 <= v) vs.
Proof.
  induction f as [|f IH]; intros [|b d] vs E; try (cbn in E; discriminate); try (cbn in E; apply Ok_inj in E; subst; constructor).
  change (oid_tail (S f) (b :: d)) with
    (let* (v, t) := base128 5 true 0 (b :: d) in let* r := oid_tail f t in Ok (v :: r)) in E.
  apply bind_ok in E as ([v t] & U & E). apply bind_ok in E as (r & R & E). apply Ok_inj in E. subst.
  constructor; [|eauto]. eapply base128_pos; [|exact U]. lia.
Qed.

Lemma parse_oid_pos d o : parse_oid d = Ok o -> Forall (fun v => 0 <= v) o.
Proof.
  intros E. unfold parse_oid in E. apply bind_ok in E as ([v t] & U & E). apply bind_ok in E as (r & R & E).
  apply base128_pos in U; [|lia]. apply oid_tail_pos in R. apply Ok_inj in E. subst.
  destruct (Z.ltb_spec v 80); repeat constructor; auto; lia.
Qed.

Lemma raw_parts d v rest : bytes_ok d -> asn1_raw d = Ok (v, rest) -> bytes_ok (rv_bytes v) /\ bytes_ok rest.
Proof.
  intros B E. apply raw_iff in E as [V ->]; auto. apply bytes_ok_app in B as [B1 B2]. split; auto. now apply element_ok.
Qed.

Lemma length_parts n d v rest : bytes_ok d -> raw_of_length n d = Ok (v, rest) -> bytes_ok v /\ bytes_ok rest.
Proof.
  intros B E. unfold raw_of_length in E. apply bind_ok in E as ([x r] & U & E). inv_bind E. apply Ok_inj in E.
  injection E as <- <-. now apply (raw_parts d).
Qed.

Lemma be_pos d : bytes_ok d -> 0 <= be d.
Proof. intros B. apply be_range in B. lia. Qed.

Lemma rsa_part d x : bytes_ok d -> unmarshal_rsa d = Ok x -> clean (in_rsa x).
Proof.
  intros B E. unfold unmarshal_rsa in E. inv_bind E. apply Ok_inj in E. subst x. unfold in_rsa. cbn [rsa_chr rsa_car].
  constructor; [apply ascii_clean; constructor|]. constructor; [|constructor]. apply dec_clean, be_pos. now apply bytes_ok_sub.
Qed.

Lemma ecc_part d x : bytes_ok d -> unmarshal_ecc d = Ok x -> clean (in_ecc x).
Proof.
  intros B E. unfold unmarshal_ecc in E. inv_bind E.
  apply bind_ok in E as ([outer z0] & U & E). apply raw_parts in U as [B1 _]; auto.
  apply bind_ok in E as ([body z1] & U & E). apply raw_parts in U as [B2 B2']; auto.
  apply bind_ok in E as ([cpi r1] & U & E). apply length_parts in U as [_ B3]; auto.
  apply bind_ok in E as ([car r2] & U & E). apply length_parts in U as [C1 B4]; auto.
  apply bind_ok in E as ([cha r3] & U & E). apply length_parts in U as [_ B5]; auto.
  apply bind_ok in E as ([pk r4] & U & E). apply raw_parts in U as [B6 B7]; auto.
  apply bind_ok in E as (key & K & E).
  apply bind_ok in E as ([chr r5] & U & E). apply length_parts in U as [C2 _]; auto.
  apply bind_ok in E as ([from r6] & _ & E). inv_bind E. apply bind_ok in E as ([to r7] & _ & E). inv_bind E.
  apply bind_ok in E as ([sg r8] & _ & E). cbv zeta in E. inv_bind E. apply Ok_inj in E. subst x.
  unfold in_ecc. cbn [ecc_car ecc_chr ecc_pk List.app].
  constructor; [now apply dec_clean, be_pos|]. constructor; [now apply dec_clean, be_pos|]. constructor; [|constructor].
  unfold unmarshal_key in K. apply bind_ok in K as ([o rest] & O & K). apply bind_ok in K as ([p z] & _ & K). cbv zeta in K.
  do 2 inv_bind K. apply Ok_inj in K. subst key. cbn [key_oid]. apply oid_clean.
  unfold asn1_oid in O. apply bind_ok in O as ([v r] & _ & O). inv_bind O. inv_bind O. apply Ok_inj in O. injection O as <- <-.
  eapply parse_oid_pos. eassumption.
Qed.

(** ** Fields of a card *)

Lemma flat_clean {X} (f : X -> list bytes) l : Forall (fun x => clean (f x)) l -> clean (flat_map f l).
Proof. induction 1; cbn [flat_map]; [constructor|]. apply Forall_app. auto. Qed.

Lemma map_res_clean {A X} (un : A -> res X) (f : X -> list bytes) (P : A -> Prop) l xs :
  Forall P l -> (forall a x, P a -> un a = Ok x -> clean (f x)) -> map_res un l = Ok xs -> clean (flat_map f xs).
Proof.
  intros H U E. apply map_res_ok in E. apply flat_clean. induction E; constructor; apply Forall_cons_iff in H as [? ?]; eauto.
Qed.

Ltac parts := repeat match goal with
  | |- clean (_ ++ _) => apply Forall_app; split
  | |- clean [] => constructor
  | H : unmarshal_string_value _ _ = Ok ?s |- clean (in_text (Some ?s)) => exact (text_part _ _ _ H)
  | H : unmarshal_ia5 _ = Ok ?s |- clean (in_ascii (Some ?s)) => refine (ascii_part _ _ _ H)
  | H : unmarshal_vreg _ _ = Ok ?s |- clean (in_plate (Some ?s)) => exact (plate_part _ _ _ H)
  | H : unmarshal_full_card_number _ = Ok ?s |- clean (in_full_number (Some ?s)) => refine (number_part _ _ _ H)
  | |- bytes_ok (sub _ _ _) => apply bytes_ok_sub
  end; try assumption.

Lemma card_number_part d t n : bytes_ok d -> unmarshal_card_number d = Ok (t, n) -> clean (in_card_number n).
Proof.
  intros B E. unfold unmarshal_card_number in E. cbv zeta in E.
  assert (O : forall r, (let* o := unmarshal_ia5 (sub d 0 13) in let* c := unmarshal_ia5 (sub d 13 1) in
      let* r := unmarshal_ia5 (sub d 14 1) in let* w := unmarshal_ia5 (sub d 15 1) in
      Ok (CARD_TYPE_WORKSHOP, CN_owner (mkOI (Some o) (Some c) (Some r) (Some w)))) = Ok r -> clean (in_card_number (snd r))).
  { intros r H. repeat inv_bind H. apply Ok_inj in H. subst r. cbn [snd in_card_number]. unfold in_owner.
    cbn [oi_number oi_consecutive oi_replacement oi_renewal]. parts. }
  destruct (unmarshal_ia5 (sub d 0 14)) eqn:I; try exact (O _ E).
  destruct (_ && _); [|exact (O _ E)]. apply Ok_inj in E. injection E as <- <-. cbn [in_card_number dn_number dn_replacement dn_renewal].
  parts.
  - destruct (unmarshal_ia5 (sub d 14 1)) eqn:J; cbn [in_ascii]; try constructor. apply clean_text_clean_utf8, (ia5_clean (sub d 14 1)); parts. constructor.
  - destruct (unmarshal_ia5 (sub d 15 1)) eqn:J; cbn [in_ascii]; try constructor. apply clean_text_clean_utf8, (ia5_clean (sub d 15 1)); parts. constructor.
Qed.

Lemma events_part cm d l : unmarshal_events cm d = Ok l -> clean (flat_map (fun e => in_plate (ev_vehicle e)) l).
Proof.
  intros E. unfold unmarshal_events in E. apply bind_ok in E as (ps & _ & E).
  refine (map_res_clean _ _ (fun _ => True) _ _ _ _ E); [apply Forall_forall; auto|].
  intros p x _ U. unfold unmarshal_event in U. cbv zeta in U. destruct (_ =? 0).
  - apply Ok_inj in U. subst x. constructor.
  - repeat inv_bind U. apply Ok_inj in U. subst x. cbn [ev_vehicle in_plate alias_vreg DDString.vr_number].
    match goal with H : unmarshal_vreg _ _ = Ok ?v |- _ => pose proof (plate_part _ _ _ H) as P; destruct v as [n [s|]] end; [|constructor].
    exact P.
Qed.

Theorem content_clean cm s d x : bytes_ok d -> unmarshal_content cm s d = Ok x -> clean (texts s x).
Proof.
  intros B E. destruct s; cbn [texts]; try apply Forall_nil; cbn [unmarshal_content content] in *;
    try (now eapply events_part; eassumption); try (now eapply rsa_part; eassumption); try (now eapply ecc_part; eassumption).
  - unfold unmarshal_icc in E. cbv zeta in E. repeat inv_bind E. apply Ok_inj in E. subst x.
    unfold in_icc. cbn [icc_approval icc_embedder em_country em_module]. parts.
  - unfold unmarshal_driving_licence in E. cbv zeta in E. repeat inv_bind E. apply Ok_inj in E. subst x. cbn [dl_authority dl_number]. parts.
  - unfold unmarshal_identification in E. cbv zeta in E. inv_bind E. apply bind_ok in E as ([t n] & N & E).
    repeat inv_bind E. apply Ok_inj in E. subst x. unfold in_identification.
    cbn [ident_card_part ident_holder_part id_number id_authority ih_surname ih_first_names ih_language snd]. parts.
    eapply card_number_part; [|exact N]. parts.
  - unfold unmarshal_vehicles in E. inv_bind E. apply bind_ok in E as (rs & M & E). apply Ok_inj in E. subst x. cbn [vs_records].
    refine (map_res_clean _ _ (fun _ => True) _ _ _ _ M); [apply Forall_forall; auto|].
    intros b x _ U. unfold unmarshal_card_vehicle in U. repeat inv_bind U. apply Ok_inj in U. subst x. cbn [cv_reg]. parts.
  - unfold unmarshal_current_usage in E. repeat inv_bind E. apply Ok_inj in E. subst x. cbn [cu_vehicle]. parts.
  - unfold unmarshal_control_activity in E. inv_bind E. destruct (_ =? 0).
    + apply Ok_inj in E. subst x. constructor.
    + cbv zeta in E. repeat inv_bind E. apply Ok_inj in E. subst x. unfold in_control.
      cbn [ca_card cng_number in_full_number fcn_driver fcn_owner in_driver di_number ca_vehicle]. parts.
  - unfold unmarshal_driving_licence in E. cbv zeta in E. repeat inv_bind E. apply Ok_inj in E. subst x. cbn [dl_authority dl_number]. parts.
  - unfold unmarshal_identification in E. cbv zeta in E. inv_bind E. apply bind_ok in E as ([t n] & N & E).
    repeat inv_bind E. apply Ok_inj in E. subst x. unfold in_identification.
    cbn [ident_card_part ident_holder_part id_number id_authority ih_surname ih_first_names ih_language snd]. parts.
    eapply card_number_part; [|exact N]. parts.
  - unfold unmarshal_vehicles_g2 in E. inv_bind E. apply bind_ok in E as (rs & M & E). apply Ok_inj in E. subst x. cbn [vs2_records].
    refine (map_res_clean _ _ (fun _ => True) _ _ _ _ M); [apply Forall_forall; auto|].
    intros b x _ U. unfold unmarshal_card_vehicle_g2 in U. repeat inv_bind U. apply Ok_inj in U. subst x. cbn [cv2_reg]. parts.
  - unfold unmarshal_current_usage in E. repeat inv_bind E. apply Ok_inj in E. subst x. cbn [cu_vehicle]. parts.
  - unfold unmarshal_control_activity in E. inv_bind E. destruct (_ =? 0).
    + apply Ok_inj in E. subst x. constructor.
    + cbv zeta in E. repeat inv_bind E. apply Ok_inj in E. subst x. unfold in_control.
      cbn [ca_card cng_number in_full_number fcn_driver fcn_owner in_driver di_number ca_vehicle]. parts.
Qed.

(** ** Vehicle units *)

Lemma eaten_clean {X} (un : bytes -> res X) (f : X -> list bytes) n k d xs r : bytes_ok d ->
  (forall b x, bytes_ok b -> un b = Ok x -> clean (f x)) -> eat_records un n k d = Ok (xs, r) ->
  clean (flat_map f xs) /\ bytes_ok r.
Proof.
  intros B U E. apply eat_records_inv in E as (bs & -> & _ & _ & Q). apply bytes_ok_app in B as [B R]. split; auto.
  apply flat_clean. induction Q as [|b x bs xs H Q IH]; constructor.
  - cbn [concat] in B. apply bytes_ok_app in B as [B _]. eauto.
  - cbn [concat] in B. apply bytes_ok_app in B as [_ B]. auto.
Qed.

Lemma eaten d n b r : bytes_ok d -> eat n d = Ok (b, r) -> bytes_ok b /\ bytes_ok r.
Proof. intros B E. apply eat_inv in E as [-> _]. now apply bytes_ok_app. Qed.

Lemma lock_part cm d x : bytes_ok d -> unmarshal_lock cm d = Ok x -> clean (in_lock x).
Proof.
  intros B E. unfold unmarshal_lock in E. repeat inv_bind E. apply Ok_inj in E. subst x.
  unfold in_lock. cbn [cl_name cl_address cl_card]. parts.
Qed.

Lemma control_part d x : bytes_ok d -> unmarshal_vu_control d = Ok x -> clean (in_full_number (vc_card x)).
Proof. intros B E. unfold unmarshal_vu_control in E. repeat inv_bind E. apply Ok_inj in E. subst x. cbn [vc_card]. parts. Qed.

Lemma insertion_part cm d x : bytes_ok d -> unmarshal_card_iw cm d = Ok x -> clean (in_insertion x).
Proof.
  intros B E. unfold unmarshal_card_iw in E. inv_bind E. apply bind_ok in E as (h & H & E). apply bind_ok in E as (n & N & E).
  do 6 inv_bind E. apply bind_ok in E as (p & P & E). apply Ok_inj in E. subst x.
  unfold in_insertion. cbn [iw_holder iw_card iw_previous].
  unfold unmarshal_holder_name in H. repeat inv_bind H. apply Ok_inj in H. subst h.
  unfold unmarshal_previous_vehicle in P. repeat inv_bind P. apply Ok_inj in P. subst p.
  cbn [hn_surname hn_first_names pv_reg]. parts.
Qed.

Ltac bite E B := let b := fresh "b" in let d := fresh "d" in let U := fresh "U" in let C := fresh "C" in
  apply bind_ok in E as ([b d] & U & E); apply eaten in U as [C U]; [|exact B]; clear B; rename U into B.

Lemma overview_part cm d o : bytes_ok d -> unmarshal_overview_gen1 cm d = Ok o -> clean (in_overview o).
Proof.
  intros B E. unfold unmarshal_overview_gen1 in E. cbv zeta in E.
  bite E B. bite E B. bite E B. inv_bind E. bite E B. inv_bind E. bite E B. inv_bind E. bite E B. do 2 inv_bind E.
  bite E B. bite E B. do 3 inv_bind E. bite E B. inv_bind E.
  apply bind_ok in E as ([ls dl] & U & E).
  apply (eaten_clean _ in_lock) in U as [L BL]; [|exact B|intros; eapply lock_part; eassumption].
  bite E BL. inv_bind E. apply bind_ok in E as ([cs dc] & U & E).
  apply (eaten_clean _ (fun c => in_full_number (vc_card c))) in U as [K BK]; [|exact BL|intros; eapply control_part; eassumption].
  bite E BK. inv_bind E. apply Ok_inj in E. subst o.
  unfold in_overview. cbn [ov_vin ov_reg ov_downloads ov_locks ov_controls flat_map da_card da_name]. parts.
Qed.

Lemma activities_part cm d a : bytes_ok d -> unmarshal_activities_gen1 cm d = Ok a -> clean (flat_map in_insertion (ac_iw a)).
Proof.
  intros B E. unfold unmarshal_activities_gen1 in E. cbv zeta in E. bite E B. inv_bind E. bite E B. inv_bind E. bite E B.
  apply bind_ok in E as ([is di] & U & E).
  apply (eaten_clean _ in_insertion) in U as [L BL]; [|exact B|intros; eapply insertion_part; eassumption].
  repeat (apply bind_ok in E as (? & _ & E); try match type of E with (let (_, _) := ?p in _) = _ => destruct p end).
  apply Ok_inj in E. subst a. exact L.
Qed.

(** ** The claim *)

Lemma vehicles_field fid g : field_of fid g = Some S2_vehicles -> fid = 0x0505 /\ g = true.
Proof.
  unfold field_of, fields_table. cbn [find fst].
  repeat (match goal with |- context [?a =? fid] => destruct (Z.eqb_spec a fid) end; [destruct g; cbv beta iota; intros Q; (discriminate Q || (split; [lia|reflexivity]))|]).
  discriminate.
Qed.

(** Every text of an accepted vehicle unit download, and every text of an accepted
    driver card other than the identification numbers of second-generation
    vehicles, is valid UTF-8 without padding at either end.  Missing: those
    numbers.  They are the last 17 bytes of the records in file 0505 as they are,
    less the blanks and zeros at the end, whether or not that is UTF-8. *)
Theorem C30_file_text_partial : forall cm d f, bytes_ok d -> unmarshal_file cm d = Ok f ->
  (forall v, file_vu f = Some v -> Forall clean_utf8 (vu_texts v)) /\
  (forall c, file_driver_card f = Some c -> exists us, Forall dumped_ok us /\ d = dump us /\
     forall s x sg, slot_of_card c s = Some (x, sg) ->
     Forall clean_utf8 (texts s x) /\
     forall vin, In vin (vins s x) -> exists u i pad,
       In u us /\ u_fid u = 0x0505 /\ u_gen2 u = true /\ (2 + 48 * i + 48 <= length (u_val u))%nat /\
       sub (u_val u) (2 + 48 * i + 31) 17 = vin ++ pad /\ Forall (fun z => z = 0 \/ z = 32) pad /\
       (forall p z, vin = p ++ [z] -> z <> 0 /\ z <> 32)).
Proof.
  intros cm d f B E. destruct (proj1 (C01_dispatch cm d B) f E) as [(v & ->)|[(c & ->)|(rs & ->)]]; cbn [file_vu file_driver_card];
    (split; [intros v' Q|intros c' Q]); try discriminate.
  - injection Q as <-. destruct (Props_Vu.vu_download cm d v B E) as (_ & ts & D & W & [(g & G & P & BU)|[[G _]|(G & _ & _)]]);
      injection G as ->; try constructor.
    destruct BU as (T & R1 & R2 & _ & _ & _ & P1 & P2 & _).
    assert (BV : forall k w, In w (Props_Vu.values k ts) -> bytes_ok w).
    { intros k w I. unfold Props_Vu.values in I. apply in_map_iff in I as ([k' w'] & <- & I). apply filter_In in I as [I _].
      rewrite D in B. clear - B I. induction ts as [|[k2 w2] ts IH]; [contradiction|].
      change (Props_Vu.download ((k2, w2) :: ts)) with ((0x76 :: k2 :: w2) ++ Props_Vu.download ts) in B. apply bytes_ok_app in B as [B1 B2].
      destruct I as [Q|I]; [|auto]. injection Q as <- <-. cbn [snd]. now do 2 apply bytes_ok_cons in B1 as [_ B1]. }
    cbn [vu_texts]. apply Forall_app. split.
    + destruct (g1_overview g) as [o|]; [|constructor]. cbn [Props_Vu.opt_list] in *. apply Forall_inv in P1.
      eapply overview_part; [|exact P1]. apply (BV 0x01).
      assert (I : In (ov_raw o) (Props_Vu.last_one (Props_Vu.values 0x01 ts))) by (rewrite <- R1; now left).
      unfold Props_Vu.last_one in I. destruct (rev (Props_Vu.values 0x01 ts)) eqn:V; [contradiction|]. destruct I as [I|[]].
      apply in_rev. rewrite V. left. exact I.
    + apply flat_clean. rewrite Forall_forall in *. intros a I. specialize (P2 a I).
      eapply activities_part; [|exact P2]. apply (BV 0x02). rewrite <- R2. now apply in_map.
  - injection Q as <-. destruct (accepted_bytes cm d c B E) as (us & V & D & A). exists us. split; auto. split; auto.
    intros s x sg X.
    destruct (proj1 (C10_applications_partial cm us c V A) s x sg X) as (u & I & U & _ & F & G).
    assert (BU : bytes_ok (u_val u)) by (rewrite Forall_forall in V; apply V; auto).
    split; [now apply (content_clean cm s (u_val u))|].
    intros vin IV. destruct s; try contradiction. cbn [vins content] in *. cbn [unmarshal_content] in U.
    unfold unmarshal_vehicles_g2 in U. inv_bind U. apply bind_ok in U as (rs & M & U). apply Ok_inj in U. subst x.
    cbn [vs2_records] in IV. apply in_map_iff in IV as (r & <- & IR).
    apply map_res_ok in M. assert (H : exists b, In b (chunks 48 (skipn 2 (u_val u))) /\ unmarshal_card_vehicle_g2 cm b = Ok r).
    { clear - M IR. induction M as [|b y bs ys H M IH]; [contradiction|]. destruct IR as [->|IR].
      - exists b. split; [now left|auto].
      - destruct (IH IR) as (b' & ? & ?). exists b'. split; [now right|auto]. }
    destruct H as (b & IB & R). unfold unmarshal_card_vehicle_g2 in R. repeat inv_bind R. apply Ok_inj in R. subst r. cbn [cv2_vin].
    destruct (Props_Records.trim_right_split vin_cut (sub b 31 17)) as (pad & EP & FP & DP).
    apply Props_Records.in_chunks in IB as (i & L & ->); [|lia]. rewrite skipn_length in L.
    exists u, i, pad. split; auto.
    assert (FV : u_fid u = 0x0505 /\ u_gen2 u = true).
    { now apply vehicles_field. }
    split; [apply FV|]. split; [apply FV|]. split; [lia|]. split; [|split].
    + rewrite <- EP. rewrite sub_sub by lia. rewrite sub_skipn. f_equal. lia.
    + eapply Forall_impl; [|exact FP]. unfold vin_cut. cbv beta. intros z Z0. lia.
    + intros p z Q. destruct DP as [DP|(t & w & DP & W)].
      * rewrite DP in Q. destruct p; discriminate.
      * rewrite DP in Q. apply app_inj_tail in Q as [_ ->]. unfold vin_cut in W. lia.
Qed.
Print Assumptions C30_file_text_partial.

(** A second-generation vehicle whose identification number is seventeen bytes FF. *)
Definition odd_vin_unit : dumped := mkDumped 0x0505 2 ([0; 0] ++ zeros 31 ++ repeat 0xFF 17) None.

Lemma encoded_below r : Forall (fun b => b <= 247) (encode_rune r).
Proof.
  assert (A : forall r, 0 <= r <= 0x10FFFF -> scalarb r = true -> Forall (fun b => b <= 247) (encode_rune r)).
  { clear r. intros r H E. unfold encode_rune. rewrite E. cbv zeta.
    destruct (Z.ltb_spec r 128); [|destruct (Z.ltb_spec r 2048); [|destruct (Z.ltb_spec r 65536)]];
      repeat (constructor; [lia|]); constructor. }
  destruct (scalarb r) eqn:E.
  - apply A; auto. unfold scalarb in E. lia.
  - replace (encode_rune r) with (encode_rune rune_error) by (unfold encode_rune; now rewrite E).
    apply A; [unfold rune_error; lia|reflexivity].
Qed.

(** So the full claim is false of the library: text in an accepted card that is not
    UTF-8. *)
Theorem C30_file_text_refuted : exists us c x sg vin, Forall dumped_ok us /\ accepted no_charmap us c /\
  slot_of_card c S2_vehicles = Some (x, sg) /\ In vin (vins S2_vehicles x) /\ ~ clean_utf8 vin /\
  ~ exists rs, vin = concat (map encode_rune rs).
Proof.
  set (us := [icc_unit; odd_vin_unit]).
  destruct (driver_ok_accepted us) as (V & c & A); [vm_compute; reflexivity|].
  assert (Q := A). apply accepted_iff in Q as (os & _ & _ & G & E); auto.
  destruct (card_last no_charmap us os S2_vehicles odd_vin_unit [icc_unit] [] G) as (x & X & _ & S);
    [reflexivity|reflexivity|constructor|].
  exists us, c, x, None, (repeat 0xFF 17). split; auto. split; auto. split; [subst c; exact S|].
  assert (N : ~ exists rs, repeat 0xFF 17 = concat (map encode_rune rs)).
  { intros (rs & R). destruct rs as [|r rs]; [discriminate R|]. cbn [map concat] in R.
    pose proof (encoded_below r) as H. pose proof (encode_rune_length r) as L.
    destruct (encode_rune r) as [|b l]; [cbn in L; lia|]. apply Forall_inv in H.
    apply (f_equal (hd 0)) in R. cbn in R. lia. }
  split; [|split; [|exact N]].
  - assert (W : option_map (fun x => map cv2_vin (vs2_records x)) (match unmarshal_vehicles_g2 no_charmap (u_val odd_vin_unit) with Ok x => Some x | _ => None end) = Some [repeat 0xFF 17])
      by (vm_compute; reflexivity).
    cbn [unmarshal_content] in X. rewrite X in W. cbn [option_map] in W. injection W as W. cbn [vins]. rewrite W. now left.
  - intros (rs & _ & R & _). apply N. eauto.
Qed.
Print Assumptions C30_file_text_refuted.

(** A card and a download with text in them. *)
Example C30_file_text_example :
  exists us c x sg, Forall dumped_ok us /\ accepted no_charmap us c /\
    slot_of_card c S2_licence = Some (x, sg) /\ texts S2_licence x = [[65]; [66; 67]].
Proof.
  set (u := mkDumped 0x0521 2 ([1; 32; 65] ++ repeat 32 33 ++ [1] ++ [66; 67] ++ repeat 32 14) None).
  set (us := [icc_unit; u]).
  destruct (driver_ok_accepted us) as (V & c & A); [vm_compute; reflexivity|].
  assert (Q := A). apply accepted_iff in Q as (os & _ & _ & G & E); auto.
  destruct (card_last no_charmap us os S2_licence u [icc_unit] [] G) as (x & X & _ & S);
    [reflexivity|reflexivity|constructor|].
  exists us, c, x, None. split; auto. split; auto. split; [subst c; exact S|].
  assert (W : option_map (texts S2_licence) (match unmarshal_content no_charmap S2_licence (u_val u) with Ok x => Some x | _ => None end) = Some [[65]; [66; 67]])
    by (vm_compute; reflexivity).
  rewrite X in W. cbn [option_map] in W. now injection W as W.
Qed.

Example C30_vu_text_example :
  match unmarshal_file (fun _ b => b) Props_Download.five with
  | Ok f => match file_vu f with Some v => (3 <? length (vu_texts v))%nat | None => false end
  | _ => false
  end = true.
Proof. vm_compute. reflexivity. Qed.
