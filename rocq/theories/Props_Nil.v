(** C109 and C110: writing any message at all. *)

From Verif Require Import Base Enums Chunks DDScalar P_Scalar DDString P_String DDRecord RawTypes RawCard Infer.
From Verif Require Import CardBasic CardRecords P_Records CardIdent CardActivity Cert DriverCard Vu P_Vu Api Nil.

(** ** Nothing but one canvas is out of range *)

Ltac calm := repeat first
  [ discriminate | apply guard_no_panic | apply append_time_no_panic | apply append_bcd_no_panic
  | apply append_string_value_no_panic | apply append_vreg_no_panic | apply marshal_enum_no_panic
  | match goal with
    | |- bind _ _ <> Panic => apply bind_np; [|intros]
    | |- (if ?b then _ else _) <> Panic => destruct b
    | |- (match ?x with _ => _ end) <> Panic => destruct x
    end ].

Lemma ia5_np o : append_ia5 o <> Panic.
Proof. unfold append_ia5. calm. Qed.
Lemma canvas_np n r : raw_canvas n r <> Panic.
Proof. unfold raw_canvas. calm. Qed.
Lemma canvas1_np n r : raw_canvas_nonempty n r <> Panic.
Proof. unfold raw_canvas_nonempty. calm; apply canvas_np. Qed.
Lemma bcd_string_np o : append_bcd_string o <> Panic.
Proof. unfold append_bcd_string. calm. Qed.
Lemma date_w_np o : append_date o <> Panic.
Proof. unfold append_date. calm. all: try apply canvas_np. Qed.
Lemma month_year_w_np o : append_month_year o <> Panic.
Proof. unfold append_month_year. cbv zeta. calm. all: try apply canvas_np. Qed.
Lemma csv_np o : append_csv o <> Panic.
Proof. unfold append_csv. cbv zeta. calm. all: try apply canvas_np. Qed.
Lemma control_type_w_np o : append_control_type o <> Panic.
Proof. unfold append_control_type. cbv zeta. calm. all: try apply canvas_np. Qed.
Lemma change_w_np o : append_activity_change o <> Panic.
Proof. unfold append_activity_change. calm. all: try apply canvas_np. Qed.
Lemma spec_cond_w_np o : append_spec_cond o <> Panic.
Proof. unfold append_spec_cond. calm. Qed.

Ltac calm2 := repeat first
  [ progress calm | apply ia5_np | apply canvas_np | apply canvas1_np | apply bcd_string_np | apply date_w_np | apply month_year_w_np | apply csv_np
  | apply control_type_w_np | apply change_w_np | apply spec_cond_w_np ].

Lemma driver_id_w_np o : append_driver_id o <> Panic.
Proof. unfold append_driver_id. calm2. Qed.
Lemma owner_id_w_np o : append_owner_id o <> Panic.
Proof. unfold append_owner_id. calm2. Qed.
Lemma ext_serial_np o : append_ext_serial o <> Panic.
Proof. unfold append_ext_serial. cbv zeta. calm2. Qed.
Lemma fcn_w_np o : append_full_card_number o <> Panic.
Proof. unfold append_full_card_number. cbv zeta. calm2; try apply driver_id_w_np; apply owner_id_w_np. Qed.
Lemma cng_np o : append_card_number_gen o <> Panic.
Proof. unfold append_card_number_gen. calm2; apply fcn_w_np. Qed.
Lemma gnss_place_np o : append_gnss_place o <> Panic.
Proof. unfold append_gnss_place. calm2. Qed.
Lemma holder_np o : append_holder_name o <> Panic.
Proof. unfold append_holder_name. calm2. Qed.

Ltac calm3 := repeat first
  [ progress calm2 | apply driver_id_w_np | apply owner_id_w_np | apply ext_serial_np | apply fcn_w_np | apply cng_np | apply gnss_place_np
  | apply holder_np ].

Lemma vehicle_np o : append_card_vehicle o <> Panic.
Proof. unfold append_card_vehicle. cbv zeta. calm3. Qed.
Lemma vehicle_g2_np o : append_card_vehicle_g2 o <> Panic.
Proof. unfold append_card_vehicle_g2. cbv zeta. calm3. Qed.
Lemma place_np o : append_place o <> Panic.
Proof. unfold append_place. cbv zeta. calm3. Qed.
Lemma place_g2_np o : append_place_g2 o <> Panic.
Proof. unfold append_place_g2. cbv zeta. calm3. Qed.
Lemma gnss_record_np o : append_gnss_record o <> Panic.
Proof. unfold append_gnss_record. calm3. Qed.
Lemma icc_np o : append_icc o <> Panic.
Proof. unfold append_icc, append_embedder, append_ext_serial_as_string. cbv zeta. calm3. Qed.
Lemma ic_np o : append_ic o <> Panic.
Proof. unfold append_ic. cbv zeta. calm3. Qed.
Lemma app_id_np o : append_app_id o <> Panic.
Proof. unfold append_app_id. cbv zeta. calm3. Qed.
Lemma app_id_g2_np o : append_app_id_g2 o <> Panic.
Proof. unfold append_app_id_g2. cbv zeta. calm3. Qed.
Lemma app_id_v2_np o : append_app_id_v2 o <> Panic.
Proof. unfold append_app_id_v2. cbv zeta. calm3. Qed.
Lemma licence_np o : append_driving_licence o <> Panic.
Proof. unfold append_driving_licence. cbv zeta. calm3. Qed.
Lemma usage_np o : append_current_usage o <> Panic.
Proof. unfold append_current_usage. cbv zeta. calm3. Qed.
Lemma control_np o : append_control_activity o <> Panic.
Proof. unfold append_control_activity, append_full_card_number_as_string. cbv zeta. calm3. Qed.
Lemma download_np o : append_card_download o <> Panic.
Proof. unfold append_card_download. cbv zeta. calm3. Qed.
Lemma identification_np o : append_identification o <> Panic.
Proof. unfold append_identification, append_card_identification, append_holder_identification, append_card_number. cbv zeta. calm3. Qed.

Lemma pointer_file_np {A} (ap : A -> res bytes) size pointer raw rs : (forall a, ap a <> Panic) ->
  append_pointer_file ap size pointer raw rs <> Panic.
Proof.
  intros H. unfold append_pointer_file. cbv zeta. destruct (_ =? _)%nat.
  - apply paint_records_no_panic. auto.
  - apply bind_np; [apply concat_res_no_panic; auto|discriminate].
Qed.

Lemma write_days_np : forall rs buf pos prev, write_days buf pos prev rs <> Panic.
Proof.
  induction rs as [|r rs IH]; intros; cbn [write_days]; [discriminate|]. apply bind_np.
  - unfold record_size. calm.
  - intros n. apply bind_np; [|intros; apply IH]. destruct (day_valid r); [|discriminate]. unfold marshal_day. cbv zeta.
    calm3. apply concat_res_no_panic. intros. apply change_w_np.
Qed.

Lemma ring_np rs : build_ring rs <> Panic.
Proof.
  unfold build_ring. apply bind_np; [|intros; apply write_days_np]. apply map_res_no_panic. intros. unfold record_size. calm.
Qed.

Lemma spec_cond_n_np o : append_spec_cond_n o <> Panic.
Proof. unfold append_spec_cond_n. calm2. Qed.

Lemma fit_np : forall l c off, paint_fit_n c off l <> Panic.
Proof.
  induction l as [|r l IH]; intros; cbn [paint_fit_n]; [discriminate|]. destruct (_ <? _)%nat; [discriminate|].
  apply bind_np; [apply spec_cond_n_np|]. intros. apply bind_np; [apply guard_no_panic|]. intros. apply IH.
Qed.

Lemma conditions_g2_panic x : append_conditions_g2_n x = Panic <-> length (co2n_raw x) = 1%nat.
Proof.
  unfold append_conditions_g2_n. cbv zeta. destruct (length (co2n_raw x)) as [|[|n]] eqn:L.
  - cbn [Nat.ltb Nat.leb bind]. split; [|discriminate]. intros E. exfalso. revert E. apply bind_np; [|discriminate].
    apply concat_res_no_panic. intros. apply spec_cond_n_np.
  - cbn [Nat.ltb Nat.leb]. unfold slice. rewrite L. cbn. split; reflexivity.
  - cbn [Nat.ltb Nat.leb]. split; [|discriminate]. intros E. exfalso. revert E. rewrite slice_ok by lia. cbn [bind].
    apply bind_np; [apply fit_np|]. intros [c|]; [discriminate|]. apply bind_np; [|discriminate].
    apply concat_res_no_panic. intros. apply spec_cond_n_np.
Qed.

Lemma content_n_np s x : s <> S2_conditions -> append_content_n s x <> Panic.
Proof.
  intros N. destruct s; try (now destruct N); cbn [append_content_n append_content];
    first [ apply icc_np | apply ic_np | apply app_id_np | apply app_id_g2_np | apply app_id_v2_np | apply licence_np
          | apply identification_np | apply usage_np | apply control_np | apply download_np | discriminate | idtac ].
  all: cbv delta [append_vehicles_n append_vehicles_g2_n append_places_n append_places_g2_n append_conditions_n append_units_used_n
                  append_gnss_places_n append_activity_n] beta.
  all: first
    [ apply pointer_file_np; intros;
      first [apply vehicle_np | apply vehicle_g2_np | apply place_np | apply place_g2_np | apply spec_cond_n_np]
    | apply concat_res_no_panic; intros; apply append_event_no_panic
    | apply bind_np; [destruct (_ <? _)%nat; [discriminate|apply ring_np]|discriminate]
    | apply bind_np; [apply concat_res_no_panic; intros [] ?; cbn;
                      first [apply gnss_record_np | apply append_unit_no_panic | discriminate]|discriminate] ].
Qed.

(** ** C109 *)

(** The files of a card that are written before the specific conditions of its
    second-generation application. *)
Definition before_conditions : list slot :=
  [S_icc; S_ic; S_app_id; S_licence; S_identification; S_events; S_faults; S_activity; S_vehicles; S_places; S_usage;
   S_control; S_conditions; S_download; S2_app_id; S2_vehicles; S2_places].

Lemma concat_panic {A} (f : A -> res bytes) a l b :
  (forall y, In y a -> f y <> Panic) -> (forall y, In y b -> f y <> Panic) ->
  (concat_res f (a ++ l :: b) = Panic <-> (forall y, In y a -> exists r, f y = Ok r) /\ f l = Panic).
Proof.
  intros HA HB. induction a as [|x a IH].
  - cbn [List.app concat_res]. rewrite bind_panic. split.
    + intros [E|(r & _ & E)]; [split; auto; intros y []|]. exfalso. apply bind_panic in E as [E|(? & _ & E)]; [|discriminate].
      revert E. now apply concat_res_no_panic.
    + intros [_ E]. now left.
  - cbn [List.app concat_res]. rewrite bind_panic. split.
    + intros [E|(r & R & E)]; [exfalso; apply (HA x); auto; now left|].
      apply bind_panic in E as [E|(? & _ & E)]; [|discriminate]. apply IH in E as [E1 E2]; [|intros y I; apply HA; now right].
      split; auto. intros y [<-|I]; eauto.
    + intros [E1 E2]. right. destruct (E1 x) as [r R]; [now left|]. exists r. split; auto. apply bind_panic. left.
      apply IH; [intros y I; apply HA; now right|]. split; auto. intros y I. apply E1. now right.
Qed.

(** MarshalFile crashes on a message exactly if it is a driver card whose second
    generation application holds specific conditions with one single byte of raw
    data, and no file written before them is refused with an error.  So it never
    crashes on a message without such conditions, whatever else is in it: absent
    parts, nil elements, raw data of any length, numbers and enumeration values of
    any size.  Missing: that message. *)
Theorem C109_write_panics_partial : forall o,
  marshal_file_n o = Panic <->
  exists f c x sg, o = Some f /\ fn_type f = 2 /\ fn_driver_card f = Some c /\
    slot_of_card_n c S2_conditions = Some (x, sg) /\ length (co2n_raw x) = 1%nat /\
    forall s y sy, In s before_conditions -> slot_of_card_n c s = Some (y, sy) -> exists b, append_content_n s y = Ok b.
Proof.
  intros o. split.
  - intros E. destruct o as [f|]; [|discriminate]. cbn [marshal_file_n] in E.
    destruct (Z.eqb_spec (fn_type f) FILE_DRIVER_CARD) as [T|_].
    2:{ destruct (_ =? _); [destruct (fn_vu f); discriminate|]. destruct (_ =? _); discriminate. }
    destruct (fn_driver_card f) as [c|] eqn:C; [|discriminate]. cbn [marshal_driver_card_n] in E.
    change marshal_order with (firstn 17 marshal_order ++ (S2_conditions, SignedG2) :: skipn 18 marshal_order) in E.
    assert (NP : forall p, fst p <> S2_conditions -> write_slot_n c p <> Panic).
    { intros p N. unfold write_slot_n. destruct (slot_of_card_n c (fst p)) as [[v sg]|]; [|discriminate].
      apply bind_np; [now apply content_n_np|discriminate]. }
    apply concat_panic in E as [E1 E2];
      try (intros p I; apply NP; intros Q; revert I; cbn; intuition (subst p; discriminate)).
    unfold write_slot_n in E2. cbn [fst] in E2. destruct (slot_of_card_n c S2_conditions) as [[x sg]|] eqn:X; [|discriminate].
    apply bind_panic in E2 as [E2|(? & _ & E2)]; [|discriminate]. cbn [append_content_n] in E2.
    apply conditions_g2_panic in E2. exists f, c, x, sg. do 5 (split; auto).
    intros s y sy I Y.
    assert (J : exists k, In (s, k) (firstn 17 marshal_order)).
    { cbn in I. cbn. intuition (subst s; eauto 20). }
    destruct J as [k J]. destruct (E1 _ J) as [r R]. unfold write_slot_n in R. cbn [fst] in R. rewrite Y in R.
    apply bind_ok in R as (b & R & _). eauto.
  - intros (f & c & x & sg & -> & T & C & X & L & H). cbn [marshal_file_n]. unfold FILE_DRIVER_CARD. rewrite T, C. cbn [Z.eqb Pos.eqb marshal_driver_card_n].
    change marshal_order with (firstn 17 marshal_order ++ (S2_conditions, SignedG2) :: skipn 18 marshal_order).
    assert (NP : forall p, fst p <> S2_conditions -> write_slot_n c p <> Panic).
    { intros p N. unfold write_slot_n. destruct (slot_of_card_n c (fst p)) as [[v sy]|]; [|discriminate].
      apply bind_np; [now apply content_n_np|discriminate]. }
    apply concat_panic; try (intros p I; apply NP; intros Q; revert I; cbn; intuition (subst p; discriminate)).
    split.
    + intros [s k] I. unfold write_slot_n. cbn [fst snd]. destruct (slot_of_card_n c s) as [[y sy]|] eqn:Y; [|eauto].
      destruct (H s y sy) as [b B]; auto; [|rewrite B; cbn [bind]; eauto].
      cbn in I. cbn. intuition (match goal with Q : (_, _) = (_, _) |- _ => injection Q as <- _ end; auto 20).
    + unfold write_slot_n. cbn [fst snd]. rewrite X. apply bind_panic. left. cbn [append_content_n]. now apply conditions_g2_panic.
Qed.
Print Assumptions C109_write_panics_partial.

Definition one_byte : conditions_g2_n := mkCond2N [7] 0 [].

Definition gen2_card (slots : forall s, option (content_n s * option bytes)) : file_n :=
  mkFileN 2 None (Some (mkDCN (fun a => match a with Master => false | _ => true end) slots)) None.

(** Nothing but specific conditions with one byte of raw data. *)
Theorem C109_write_panics_refuted : exists o, marshal_file_n o = Panic.
Proof.
  exists (Some (gen2_card (fun s => match s return option (content_n s * option bytes) with
                                    | S2_conditions => Some (one_byte, None) | _ => None end))).
  reflexivity.
Qed.
Print Assumptions C109_write_panics_refuted.

(** ** Messages without nil elements *)

(** The same message, its elements made pointers. *)
Definition point_day (d : day) : day_n :=
  mkDayN (day_valid d) (day_raw d) (day_prev d) (day_len d) (day_date d) (day_counter d) (day_distance d) (map Some (day_changes d)).

Definition point (s : slot) : content s -> content_n s :=
  match s return content s -> content_n s with
  | S_events | S2_events | S_faults | S2_faults => map Some
  | S_activity | S2_activity => fun a => mkActN (act_oldest a) (act_newest a) (act_raw a) (map (fun d => Some (point_day d)) (act_days a))
  | S_vehicles => fun x => mkVehN (vs_raw x) (vs_newest x) (map Some (vs_records x))
  | S2_vehicles => fun x => mkVeh2N (vs2_raw x) (vs2_newest x) (map Some (vs2_records x))
  | S_places => fun x => mkPlacesN (ps_raw x) (ps_newest x) (map Some (ps_records x))
  | S2_places => fun x => mkPlaces2N (ps2_raw x) (ps2_newest x) (map Some (ps2_records x))
  | S_conditions => fun x => mkCondN (co_raw x) (map Some (co_records x))
  | S2_conditions => fun x => mkCond2N (co2_raw x) (co2_newest x) (map Some (co2_records x))
  | S2_units => fun x => mkUUN (uu_newest x) (map Some (uu_records x))
  | S2_gnss => fun x => mkGPsN (gps_newest x) (map Some (gps_records x))
  | S_icc | S_ic | S_app_id | S2_app_id | S_licence | S2_licence | S_identification | S2_identification | S_usage | S2_usage
  | S_control | S2_control | S_download | S2_download | S2_app_v2 | S_card_cert | S_ca_cert | S2_ma_cert | S2_sign_cert
  | S2_ca_cert | S2_link_cert => fun x => x
  end.

Definition point_card (c : driver_card) : driver_card_n :=
  mkDCN (dc_has c) (fun s => match dc_slot c s with Some (v, sg) => Some (point s v, sg) | None => None end).

Definition point_file (f : file) : file_n :=
  mkFileN (file_type f) (file_vu f) (option_map point_card (file_driver_card f)) (option_map (map Some) (file_raw_card f)).

Lemma concat_point {A} (f : A -> res bytes) (g : option A -> res bytes) l : (forall a, g (Some a) = f a) ->
  concat_res g (map Some l) = concat_res f l.
Proof. intros H. induction l as [|a l IH]; cbn [map concat_res]; [reflexivity|]. now rewrite H, IH. Qed.

Lemma paint_point {A} (f : A -> res bytes) (g : option A -> res bytes) size : (forall a, g (Some a) = f a) ->
  forall l c off, Chunks.paint_records g size c off (map Some l) = Chunks.paint_records f size c off l.
Proof.
  intros H. induction l as [|a l IH]; intros; cbn [map Chunks.paint_records]; [reflexivity|]. rewrite H.
  destruct (f a); cbn [bind]; auto. destruct (guard _); cbn [bind]; auto.
Qed.

Lemma pointer_file_point {A} (f : A -> res bytes) (g : option A -> res bytes) size pointer raw l : (forall a, g (Some a) = f a) ->
  append_pointer_file g size pointer raw (map Some l) = append_pointer_file f size pointer raw l.
Proof.
  intros H. unfold append_pointer_file. cbv zeta. rewrite map_length, (concat_point f g) by auto.
  now rewrite (paint_point f g) by auto.
Qed.

Lemma fit_point : forall l c off, paint_fit_n c off (map Some l) = paint_fit c off l.
Proof.
  induction l as [|a l IH]; intros; cbn [map paint_fit_n paint_fit append_spec_cond_n]; [reflexivity|].
  destruct (_ <? _)%nat; auto. destruct (append_spec_cond a); cbn [bind]; auto. destruct (guard _); cbn [bind]; auto.
Qed.

Lemma activity_point x :
  append_activity_n (mkActN (act_oldest x) (act_newest x) (act_raw x) (map (fun d => Some (point_day d)) (act_days x))) =
  append_activity (Some x).
Proof.
  unfold append_activity_n. cbn [actn_raw actn_days actn_oldest actn_newest]. rewrite map_map.
  replace (map (fun d => shown_day (Some (point_day d))) (act_days x)) with (act_days x); [reflexivity|].
  symmetry. rewrite <- (map_id (act_days x)) at 2. apply map_ext. intros [? ? ? ? ? ? ? ch]. unfold shown_day. cbn. f_equal.
  rewrite map_map. rewrite <- (map_id ch) at 2. now apply map_ext.
Qed.

Lemma content_point s x : append_content_n s (point s x) = append_content s x.
Proof.
  destruct s; try reflexivity; cbn [point append_content append_content_n].
  - apply (concat_point append_event). reflexivity.
  - apply (concat_point append_event). reflexivity.
  - apply activity_point.
  - apply (pointer_file_point append_card_vehicle). reflexivity.
  - apply (pointer_file_point append_place). reflexivity.
  - apply (pointer_file_point append_spec_cond). reflexivity.
  - apply (concat_point append_event). reflexivity.
  - apply (concat_point append_event). reflexivity.
  - apply activity_point.
  - apply (pointer_file_point append_card_vehicle_g2). reflexivity.
  - apply (pointer_file_point append_place_g2). reflexivity.
  - unfold append_conditions_g2_n, append_conditions_g2. cbn [co2n_raw co2n_newest co2n_records]. cbv zeta.
    now rewrite fit_point, (concat_point append_spec_cond) by reflexivity.
  - unfold append_units_used_n. cbn [uun_records uun_newest]. now rewrite (concat_point append_unit_record) by reflexivity.
  - unfold append_gnss_places_n. cbn [gpsn_records gpsn_newest]. now rewrite (concat_point append_gnss_record) by reflexivity.
Qed.

(** Writing a message without nil elements is what [marshal_file] says. *)
Theorem C109_no_nil : forall f, marshal_file_n (Some (point_file f)) = marshal_file (Some f).
Proof.
  intros f. unfold marshal_file_n, marshal_file. cbn [point_file fn_type fn_driver_card fn_vu fn_raw_card].
  destruct (_ =? _).
  - destruct (file_driver_card f) as [c|]; [|reflexivity]. cbn [option_map marshal_driver_card_n marshal_driver_card].
    induction marshal_order as [|[s k] l IH]; cbn [concat_res]; [reflexivity|]. rewrite IH. f_equal.
    unfold write_slot_n, write_slot. cbn [fst snd]. unfold slot_of_card_n, slot_of_card. cbn [point_card dcn_has dcn_slot].
    destruct (dc_has c (slot_app s)); [|reflexivity]. destruct (dc_slot c s) as [[v sg]|]; [|reflexivity].
    now rewrite content_point.
  - destruct (_ =? _); [reflexivity|]. destruct (_ =? _); [|reflexivity]. unfold marshal_raw_card_file. f_equal.
    destruct (file_raw_card f) as [l|]; [|reflexivity]. cbn [option_map]. induction l as [|r l IH]; cbn [map flat_map odflt]; congruence.
Qed.
Print Assumptions C109_no_nil.

(** So writing what can be represented without nil elements crashes in the same one case. *)
Corollary C109_write_file_partial : forall f,
  marshal_file (Some f) = Panic ->
  exists c x sg, file_type f = 2 /\ file_driver_card f = Some c /\ slot_of_card c S2_conditions = Some (x, sg) /\
                 length (co2_raw x) = 1%nat.
Proof.
  intros f E. rewrite <- C109_no_nil in E. apply C109_write_panics_partial in E as (f' & c & x & sg & Q & T & C & X & L & _).
  injection Q as <-. cbn [point_file fn_type fn_driver_card] in T, C. destruct (file_driver_card f) as [d|] eqn:D; [|discriminate].
  injection C as <-. unfold slot_of_card_n in X. cbn [point_card dcn_has dcn_slot] in X.
  destruct (dc_has d (slot_app S2_conditions)) eqn:H; [|discriminate].
  destruct (dc_slot d S2_conditions) as [[v sy]|] eqn:V; [|discriminate]. injection X as <- <-.
  exists d, v, sy. unfold slot_of_card. rewrite H. auto.
Qed.
Print Assumptions C109_write_file_partial.

(** Two cards: the nil elements of the first are written or passed over, and its
    twenty-first file is the one of the crash; on the second a nil vehicle is refused
    before the same file is reached. *)
Example C109_example :
  let slots v := fun s => match s return option (content_n s * option bytes) with
                          | S_events => Some ([None; None], None)
                          | S_places => Some (mkPlacesN [] 0 [None], None)
                          | S_vehicles => v
                          | S2_conditions => Some (one_byte, None)
                          | _ => None end in
  marshal_file_n (Some (gen2_card (slots None))) = Panic /\
  marshal_file_n (Some (gen2_card (slots (Some (mkVehN [] 0 [None], None))))) = fail.
Proof. split; vm_compute; reflexivity. Qed.

(** ** C110 *)

(** The elements that are there. *)
Definition present {A} (l : list (option A)) : list A := flat_map (fun o => match o with Some a => [a] | None => [] end) l.

Lemma concat_all {A} (f : A -> res bytes) : forall l b, concat_res f l = Ok b -> forall a, In a l -> exists r, f a = Ok r.
Proof.
  induction l as [|x l IH]; intros b E a []; cbn [concat_res] in E; apply bind_ok in E as (r & R & E).
  - subst. eauto.
  - apply bind_ok in E as (r' & R' & _). eauto.
Qed.

Lemma paint_all {A} (f : A -> res bytes) size : forall l c off b, Chunks.paint_records f size c off l = Ok b ->
  forall a, In a l -> exists r, f a = Ok r.
Proof.
  induction l as [|x l IH]; intros c off b E a []; cbn [Chunks.paint_records] in E; apply bind_ok in E as (r & R & E).
  - subst. eauto.
  - apply bind_ok in E as (? & _ & E). eauto.
Qed.

Lemma pointer_all {A} (f : A -> res bytes) size pointer raw l b : append_pointer_file f size pointer raw l = Ok b ->
  forall a, In a l -> exists r, f a = Ok r.
Proof.
  unfold append_pointer_file. cbv zeta. destruct (_ =? _)%nat; intros E a I.
  - eapply paint_all; eauto.
  - apply bind_ok in E as (? & E & _). eapply concat_all; eauto.
Qed.

Lemma fit_all : forall l c off r, paint_fit_n c off l = Ok (Some r) -> ~ In None l.
Proof.
  induction l as [|x l IH]; intros c off r E; cbn [paint_fit_n] in E; [auto|]. destruct (_ <? _)%nat; [discriminate|].
  apply bind_ok in E as (b & B & E). apply bind_ok in E as (? & _ & E). intros [->|I]; [discriminate|]. now apply IH in E.
Qed.

Lemma days_all : forall l buf pos prev b, write_days buf pos prev l = Ok b ->
  forall d, In d l -> (exists n, record_size d = Ok n) /\
                      (day_valid d = true -> forall ch, In ch (day_changes d) -> exists r, append_activity_change ch = Ok r).
Proof.
  induction l as [|x l IH]; intros buf pos prev b E d I; cbn [write_days] in E; [destruct I|].
  apply bind_ok in E as (n & N & E). apply bind_ok in E as (y & Y & E). destruct I as [->|I]; [|eapply IH; eauto].
  split; [eauto|]. intros V. rewrite V in Y. unfold marshal_day in Y.
  apply bind_ok in Y as (? & _ & Y). apply bind_ok in Y as (? & _ & Y). apply bind_ok in Y as (? & Y & _).
  eapply concat_all; eauto.
Qed.

Lemma card_all f c b : fn_type f = 2 -> fn_driver_card f = Some c -> marshal_file_n (Some f) = Ok b ->
  forall s k x sg, In (s, k) marshal_order -> slot_of_card_n c s = Some (x, sg) -> exists r, append_content_n s x = Ok r.
Proof.
  intros T C E s k x sg I X. cbn [marshal_file_n] in E. unfold FILE_DRIVER_CARD in E. rewrite T, C in E.
  cbn [Z.eqb Pos.eqb marshal_driver_card_n] in E. destruct (concat_all _ _ _ E _ I) as [r R]. unfold write_slot_n in R.
  cbn [fst] in R. rewrite X in R. apply bind_ok in R as (y & Y & _). eauto.
Qed.

(** If MarshalFile writes a driver card then there is no nil element among its
    vehicles and specific conditions, nor among the days of an activity file without
    raw bytes, nor among the changes of a valid such day.  Missing: the other lists. *)
Theorem C110_nil_refused_partial : forall f c b,
  fn_type f = 2 -> fn_driver_card f = Some c -> marshal_file_n (Some f) = Ok b ->
  (forall x sg, slot_of_card_n c S_vehicles = Some (x, sg) -> ~ In None (vsn_records x)) /\
  (forall x sg, slot_of_card_n c S2_vehicles = Some (x, sg) -> ~ In None (vs2n_records x)) /\
  (forall x sg, slot_of_card_n c S_conditions = Some (x, sg) -> ~ In None (con_records x)) /\
  (forall x sg, slot_of_card_n c S2_conditions = Some (x, sg) -> ~ In None (co2n_records x)) /\
  (forall x sg, slot_of_card_n c S_activity = Some (x, sg) -> actn_raw x = [] ->
     ~ In None (actn_days x) /\
     forall d, In (Some d) (actn_days x) -> dn_valid d = true -> ~ In None (dn_changes d)).
Proof.
  intros f c b T C E. pose proof (card_all f c b T C E) as ALL. clear E.
  split; [|split; [|split; [|split]]]; intros x sg X.
  - destruct (ALL S_vehicles Signed x sg) as [r R]; [cbn; auto 30|auto|]. cbn [append_content_n] in R. intros I.
    apply (pointer_all _ _ _ _ _ _ R) in I as [? I]. revert I. vm_compute. discriminate.
  - destruct (ALL S2_vehicles SignedG2 x sg) as [r R]; [cbn; auto 30|auto|]. cbn [append_content_n] in R. intros I.
    apply (pointer_all _ _ _ _ _ _ R) in I as [? I]. revert I. vm_compute. discriminate.
  - destruct (ALL S_conditions Signed x sg) as [r R]; [cbn; auto 30|auto|]. cbn [append_content_n] in R. intros I.
    apply (pointer_all _ _ _ _ _ _ R) in I as [? I]. discriminate.
  - destruct (ALL S2_conditions SignedG2 x sg) as [r R]; [cbn; auto 30|auto|]. cbn [append_content_n] in R.
    unfold append_conditions_g2_n in R. cbv zeta in R. apply bind_ok in R as ([p|] & P & R).
    + destruct (_ <? _)%nat; [|discriminate]. apply bind_ok in P as (? & _ & P). now apply fit_all in P.
    + apply bind_ok in R as (? & R & _). intros I. apply (concat_all _ _ _ R) in I as [? I]. discriminate.
  - intros RAW. destruct (ALL S_activity Signed x sg) as [r R]; [cbn; auto 30|auto|]. cbn [append_content_n] in R.
    unfold append_activity_n in R. rewrite RAW in R. cbn [length Nat.ltb Nat.leb] in R.
    apply bind_ok in R as (w & W & _). unfold build_ring in W. apply bind_ok in W as (sizes & _ & W). split.
    + intros I. apply (in_map shown_day) in I. apply (days_all _ _ _ _ _ W) in I as [[n I] _]. discriminate.
    + intros d I V N. apply (in_map shown_day) in I. apply (days_all _ _ _ _ _ W) in I as [_ I].
      destruct (I V empty_change) as [y Y]; [|discriminate]. cbn [shown_day odflt day_changes]. now apply (in_map (odflt empty_change)) in N.
Qed.
Print Assumptions C110_nil_refused_partial.

(** The nil elements among events, faults, GNSS places and vehicle units are left out:
    the records after them move up. *)
Theorem C110_nil_left_out :
  (forall l, append_content_n S_events l = concat_res append_event (present l)) /\
  (forall l, append_content_n S_faults l = concat_res append_event (present l)) /\
  (forall x, append_content_n S2_gnss x = append_gnss_places (Some (mkGPs (gpsn_newest x) (present (gpsn_records x))))) /\
  (forall x, append_content_n S2_units x = append_units_used (Some (mkUU (uun_newest x) (present (uun_records x))))).
Proof.
  assert (C : forall A (f : A -> res bytes) g l, (forall a, g (Some a) = f a) -> g None = Ok [] ->
              concat_res g l = concat_res f (present l)).
  { intros A f g l H N. induction l as [|[a|] l IH]; cbn [concat_res present flat_map List.app]; [reflexivity| |].
    - rewrite H. fold (present l). now rewrite IH.
    - rewrite N. cbn [bind]. fold (present l). rewrite <- IH. destruct (concat_res g l); reflexivity. }
  split; [|split; [|split]].
  - intros l. apply C; reflexivity.
  - intros l. apply C; reflexivity.
  - intros x. cbn [append_content_n]. unfold append_gnss_places_n. now rewrite (C _ append_gnss_record) by reflexivity.
  - intros x. cbn [append_content_n]. unfold append_units_used_n. now rewrite (C _ append_unit_record) by reflexivity.
Qed.
Print Assumptions C110_nil_left_out.

(** A nil place is written as a message without any field set, which is a place of zero
    bytes. *)
Theorem C110_nil_place : forall x,
  append_content_n S_places x =
    append_content S_places (mkPlaces (psn_raw x) (psn_newest x)
      (map (fun o => match o with Some p => p | None => mkPlace [] None 0 None 0 None [] 0 end) (psn_records x))) /\
  append_place (mkPlace [] None 0 None 0 None [] 0) = Ok (repeat 0 10).
Proof.
  intros x. change (fun o => match o with Some p => p | None => mkPlace [] None 0 None 0 None [] 0 end) with (odflt empty_place). split; [|reflexivity]. cbn [append_content_n append_content].
  assert (C : forall l, concat_res append_place_n l = concat_res append_place (map (odflt empty_place) l)).
  { induction l as [|a l IH]; cbn [concat_res map]; [reflexivity|]. now rewrite IH. }
  assert (P : forall l c off, Chunks.paint_records append_place_n 10 c off l =
                              Chunks.paint_records append_place 10 c off (map (odflt empty_place) l)).
  { induction l as [|a l IH]; intros; cbn [Chunks.paint_records map]; [reflexivity|]. unfold append_place_n at 1.
    destruct (append_place _); cbn [bind]; auto. destruct (guard _); cbn [bind]; auto. }
  unfold append_places_n, append_places, append_pointer_file. cbn [ps_raw ps_newest ps_records]. cbv zeta.
  now rewrite map_length, C, P.
Qed.
Print Assumptions C110_nil_place.

Theorem C110_nil_place_g2 : forall x,
  append_content_n S2_places x =
    append_content S2_places (mkPlaces2 (ps2n_raw x) (ps2n_newest x)
      (map (fun o => match o with Some p => p | None => mkPlace2 [] None 0 None 0 None [] 0 None end) (ps2n_records x))) /\
  append_place_g2 (mkPlace2 [] None 0 None 0 None [] 0 None) = Ok (repeat 0 21).
Proof.
  intros x. change (fun o => match o with Some p => p | None => mkPlace2 [] None 0 None 0 None [] 0 None end) with (odflt empty_place_g2).
  split; [|reflexivity]. cbn [append_content_n append_content].
  assert (C : forall l, concat_res append_place_g2_n l = concat_res append_place_g2 (map (odflt empty_place_g2) l)).
  { induction l as [|a l IH]; cbn [concat_res map]; [reflexivity|]. now rewrite IH. }
  assert (P : forall l c off, Chunks.paint_records append_place_g2_n 21 c off l =
                              Chunks.paint_records append_place_g2 21 c off (map (odflt empty_place_g2) l)).
  { induction l as [|a l IH]; intros; cbn [Chunks.paint_records map]; [reflexivity|]. unfold append_place_g2_n at 1.
    destruct (append_place_g2 _); cbn [bind]; auto. destruct (guard _); cbn [bind]; auto. }
  unfold append_places_g2_n, append_places_g2, append_pointer_file. cbn [ps2_raw ps2_newest ps2_records]. cbv zeta.
  now rewrite map_length, C, P.
Qed.
Print Assumptions C110_nil_place_g2.

(** A nil record of a raw card file is written as a record of tag 0, type 0 and length
    0; a nil day beside raw ring bytes leaves no trace; a card with a nil event between two
    events is written as the card without it. *)
Theorem C110_nil_refused_refuted :
  (exists f, fn_raw_card f = Some [None] /\ marshal_file_n (Some f) = Ok [0; 0; 0; 0; 0]) /\
  (exists f c x sg b, fn_driver_card f = Some c /\ slot_of_card_n c S_activity = Some (x, sg) /\ In None (actn_days x) /\
     marshal_file_n (Some f) = Ok b) /\
  (exists f c l sg b, fn_driver_card f = Some c /\ slot_of_card_n c S_events = Some (l, sg) /\ In None l /\
     marshal_file_n (Some f) = Ok b) /\
  (exists f c x sg b, fn_driver_card f = Some c /\ slot_of_card_n c S_places = Some (x, sg) /\ In None (psn_records x) /\
     marshal_file_n (Some f) = Ok b).
Proof.
  split; [|split; [|split]].
  - exists (mkFileN 6 None None (Some [None])). split; reflexivity.
  - eexists (gen2_card (fun s => match s return option (content_n s * option bytes) with
                                 | S_activity => Some (mkActN 0 0 [1; 2; 3] [None], None) | _ => None end)).
    do 4 eexists. split; [reflexivity|]. split; [reflexivity|]. split; [now left|]. vm_compute. reflexivity.
  - eexists (gen2_card (fun s => match s return option (content_n s * option bytes) with
                                 | S_events => Some ([Some (mkEv false [1] 0 None None None); None; Some (mkEv false [2] 0 None None None)], None)
                                 | _ => None end)).
    do 4 eexists. split; [reflexivity|]. split; [reflexivity|]. split; [right; now left|]. vm_compute. reflexivity.
  - eexists (gen2_card (fun s => match s return option (content_n s * option bytes) with
                                 | S_places => Some (mkPlacesN [] 0 [None], None) | _ => None end)).
    do 4 eexists. split; [reflexivity|]. split; [reflexivity|]. split; [now left|]. vm_compute. reflexivity.
Qed.
Print Assumptions C110_nil_refused_refuted.

(** A card that is written, with a day, a specific condition and a nil event. *)
Example C110_example :
  let slots := fun s => match s return option (content_n s * option bytes) with
                        | S_activity => Some (mkActN 0 0 [] [Some (mkDayN false [1; 2; 3] 0 0 None None 0 [])], None)
                        | S_conditions => Some (mkCondN [] [Some (mkSC (Some (mkTs 1000 0)) 2 0)], None)
                        | S_events => Some ([None], None)
                        | _ => None end in
  exists b, marshal_file_n (Some (gen2_card slots)) = Ok b /\ length b = 426%nat.
Proof. eexists. split; vm_compute; reflexivity. Qed.
