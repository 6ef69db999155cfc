(** C65: edits in the files Props_Edit.v leaves out. *)

From Coq Require Import String.
From Verif Require Import Base Enums DDScalar Chunks Utf8 DDString DDRecord RawTypes Infer CardBasic CardIdent CardRecords.
From Verif Require Import P_Utf8 P_Scalar Props_Scalar P_Basic P_String Props_String Field P_Record P_Records P_Scanner Scanner.
From Verif Require Import Anonymize P_Anonymize Props_Edit Props_Layout P_Build CardActivity Props_Activity.
Local Open Scope list_scope.

(** A field of a record: the place of its bytes, and when two messages agree in it. *)
Definition part (X : Type) : Type := (nat * nat * (X -> X -> Prop))%type.

Definition at_ {X T} (o n : nat) (f : X -> T) : part X := (o, n, fun x y => f x = f y).

(** The fields follow each other without gaps; the result is the size of the record. *)
Fixpoint covered {X} (o : nat) (l : list (part X)) : option nat :=
  match l with
  | [] => Some o
  | (o', n, _) :: t => if (o' =? o)%nat then covered (o + n) t else None
  end.

(** Whatever is edited, the record keeps its size, and a field in which the two
    messages agree keeps its bytes.  [ok] bounds the messages looked at. *)
Definition edits_stay {X} (ap : X -> res bytes) (ok : X -> Prop) (size : nat) (l : list (part X)) : Prop :=
  covered 0 l = Some size /\
  forall x y out out', ok x -> ok y -> ap x = Ok out -> ap y = Ok out' ->
    length out = size /\ length out' = size /\
    forall o n same, In (o, n, same) l -> same x y -> sub out o n = sub out' o n.

(** A text that is written in [n] bytes, if at all: what decides is its own size
    field, and for parsed texts that of the bytes kept. *)
Definition ia5_of (n : nat) (o : option ia5) : Prop := forall b, append_ia5 o = Ok b -> length b = n.
Definition text_of (n : nat) (o : option string_value) : Prop := forall b, append_string_value o = Ok b -> length b = S n.
Definition vreg_of (o : option vreg) : Prop := forall b, append_vreg o = Ok b -> length b = 15%nat.

(** It is enough to find the bytes of each field in what is written. *)
Lemma by_segments {X} (ap : X -> res bytes) (ok : X -> Prop) size (l : list (part X)) (segs : list (X -> res bytes)) :
  covered 0 l = Some size ->
  Forall2 (fun (p : part X) (seg : X -> res bytes) => forall x y, snd p x y -> seg x = seg y) l segs ->
  (forall x out, ok x -> ap x = Ok out -> length out = size /\
     Forall2 (fun (p : part X) (seg : X -> res bytes) => seg x = Ok (sub out (fst (fst p)) (snd (fst p)))) l segs) ->
  edits_stay ap ok size l.
Proof.
  intros Hc Hs Hw. split; [exact Hc|]. intros x y out out' Ox Oy Ex Ey.
  destruct (Hw _ _ Ox Ex) as [Lx Fx]. destruct (Hw _ _ Oy Ey) as [Ly Fy].
  split; [exact Lx|]. split; [exact Ly|]. clear - Hs Fx Fy.
  revert segs Hs Fx Fy. induction l as [|p l IH]; intros segs Hs Fx Fy o n same I Hsame; [destruct I|].
  inversion Hs as [|? seg ? segs' S1 S2]; subst. inversion Fx as [|? ? ? ? X1 X2]; subst.
  inversion Fy as [|? ? ? ? Y1 Y2]; subst. destruct I as [->|I]; [|now apply (IH segs' S2 X2 Y2 o n same)].
  cbn [fst snd] in *. apply Ok_inj. rewrite <- X1, <- Y1. now apply S1.
Qed.

Ltac every t := repeat (apply Forall2_cons; [cbn [fst snd at_]; t|]); apply Forall2_nil.
Ltac same_segment := every ltac:(intros ? ? Q; cbv beta in *; first [congruence|now rewrite Q]).

Ltac rewrite_all_ok := repeat match goal with E : ?a = Ok _ |- context [?a] => rewrite E; cbn [bind] end.

(** What was written, from the bytes of its fields. *)
Ltac written H := cbv beta in H;
  repeat (let b := fresh "b" in let E := fresh "E" in apply bind_ok in H as (b & E & H)); apply Ok_inj in H as <-.

Ltac found_by t := every ltac:(cbv beta; t; pick; first [assumption|reflexivity|now rewrite_all_ok]).
Ltac found := found_by idtac.

Lemma pad_copy_len n s : length (pad_copy n s) = n.
Proof.
  unfold pad_copy. rewrite copy_into_length; rewrite ?zeros_length; lia.
Qed.

(** ** Files of fixed size *)

Definition ic_parts : list (part ic) := [at_ 0 4 ic_serial; at_ 4 4 ic_references].

Lemma ic_edits : edits_stay (fun x => append_ic (Some x)) (fun _ => True) 8 ic_parts.
Proof.
  apply (by_segments _ _ _ _ [fun x => Ok (pad_copy 4 (ic_serial x)); fun x => Ok (pad_copy 4 (ic_references x))]);
    [reflexivity|same_segment|].
  intros x out _ E. cbn [append_ic] in E. apply Ok_inj in E as <-.
  pose proof (pad_copy_len 4 (ic_serial x)). pose proof (pad_copy_len 4 (ic_references x)).
  split; [rewrite app_length; lia|found].
Qed.

Definition current_usage_parts : list (part current_usage) := [at_ 0 4 cu_time; at_ 4 15 cu_vehicle].

Lemma current_usage_edits :
  edits_stay (fun x => append_current_usage (Some x)) (fun x => vreg_of (cu_vehicle x)) 19 current_usage_parts.
Proof.
  apply (by_segments _ _ _ _ [fun x => append_time (cu_time x);
    fun x => match cu_vehicle x with Some v => append_vreg (Some v) | None => Ok (zeros 15) end]);
    [reflexivity|same_segment|].
  intros x out O E. written E. pose proof (append_time_len _ _ E0).
  assert (length b0 = 15%nat).
  { destruct (cu_vehicle x); [now apply O|]. apply Ok_inj in E1 as <-. reflexivity. }
  split; [rewrite app_length; lia|found].
Qed.

Definition licence_parts : list (part driving_licence) := [at_ 0 36 dl_authority; at_ 36 1 dl_nation; at_ 37 16 dl_number].

Lemma licence_edits :
  edits_stay (fun x => append_driving_licence (Some x))
    (fun x => text_of 35 (dl_authority x) /\ ia5_of 16 (dl_number x)) 53 licence_parts.
Proof.
  apply (by_segments _ _ _ _ [fun x => append_string_value (dl_authority x);
    fun x => let* c := marshal_enum nation_numeric_table (dl_nation x) in Ok [c];
    fun x => append_ia5 (dl_number x)]); [reflexivity|same_segment|].
  intros x out [O1 O2] E. written E. pose proof (O1 _ E0). pose proof (O2 _ E2).
  split; [rewrite !app_length; cbn [length]; lia|found].
Qed.

(** An entry that is not in use is written from its preserved bytes alone. *)
Definition control_parts : list (part control_activity) :=
  [at_ 0 1 ca_type; at_ 1 4 ca_time; at_ 5 18 ca_card; at_ 23 15 ca_vehicle; at_ 38 4 ca_begin; at_ 42 4 ca_end].

Definition control_number (x : control_activity) : option full_card_number :=
  match ca_card x with Some g => cng_number g | None => None end.

Lemma control_edits :
  edits_stay (fun x => append_control_activity (Some x))
    (fun x => ca_valid x = true /\ vreg_of (ca_vehicle x) /\
       forall b, append_full_card_number_as_string (control_number x) = Ok b -> length b = 18%nat) 46 control_parts.
Proof.
  apply (by_segments _ _ _ _ [fun x => Ok [control_type_byte (ca_type x)]; fun x => append_time (ca_time x);
    fun x => append_full_card_number_as_string (control_number x); fun x => append_vreg (ca_vehicle x);
    fun x => append_time (ca_begin x); fun x => append_time (ca_end x)]); [reflexivity| |].
  { unfold control_number. same_segment. }
  intros x out (V & O1 & O2) E. unfold append_control_activity in E. rewrite V in E. cbn [negb] in E.
  fold (control_number x) in E. written E.
  pose proof (append_time_len _ _ E0). pose proof (O2 _ E1). pose proof (O1 _ E2).
  pose proof (append_time_len _ _ E3). pose proof (append_time_len _ _ E4).
  split; [rewrite !app_length; cbn [length]; lia|found].
Qed.

(** The counts of a driver card, present on a parsed message. *)
Definition app_drv {T} (f : app_driver -> T) (x : app_id) : option T := option_map f (ai_driver x).
Definition app_id_parts : list (part app_id) :=
  [at_ 0 1 ai_type; at_ 1 2 ai_version; at_ 3 1 (app_drv ad_events); at_ 4 1 (app_drv ad_faults);
   at_ 5 2 (app_drv ad_activity_length); at_ 7 2 (app_drv ad_vehicles); at_ 9 1 (app_drv ad_places)].

Lemma append_csv_len o b : append_csv o = Ok b -> length b = 2%nat.
Proof.
  unfold append_csv. intros E. apply bind_ok in E as (c & Ec & E). apply Ok_inj in E as <-.
  unfold raw_canvas in Ec. assert (L : length c = 2%nat).
  { destruct (csv_raw _); [destruct (_ =? 2)%nat eqn:Q; [|discriminate]; apply Ok_inj in Ec as <-; now apply Nat.eqb_eq|
      now apply Ok_inj in Ec as <-]. }
  now repeat apply set_len; [| lia| lia].
Qed.

Definition version_bytes (o : option csv) : res bytes := match o with Some v => append_csv (Some v) | None => Ok [0; 1] end.

Lemma version_len o b : version_bytes o = Ok b -> length b = 2%nat.
Proof. destruct o; [apply append_csv_len|intros E; now apply Ok_inj in E as <-]. Qed.

Definition type_byte (o : option Z) : Z :=
  match o with Some t => marshal_enum_or_zero equipment_type_table t | None => 0 end.

(** A count of a card's structure: its bytes are those of the number. *)
Definition counted (f : Z -> bytes) (o : option (option Z)) : res bytes := Ok (f (odflt 0 (odflt None o))).
Definition one (v : Z) : bytes := [u8 v].
Definition two (v : Z) : bytes := to_be 2 (u16 v).

Lemma app_id_edits :
  edits_stay (fun x => append_app_id (Some x)) (fun x => ai_card_type x = DRIVER_CARD /\ ai_driver x <> None)
    10 app_id_parts.
Proof.
  apply (by_segments _ _ _ _ [fun x => Ok [type_byte (ai_type x)]; fun x => version_bytes (ai_version x);
    fun x => counted one (app_drv ad_events x); fun x => counted one (app_drv ad_faults x);
    fun x => counted two (app_drv ad_activity_length x); fun x => counted two (app_drv ad_vehicles x);
    fun x => counted one (app_drv ad_places x)]); [reflexivity|same_segment|].
  intros x out (V & O) E. unfold append_app_id in E. rewrite V in E. cbn [Z.eqb] in E. rewrite Z.eqb_refl in E.
  fold (version_bytes (ai_version x)) in E. fold (type_byte (ai_type x)) in E.
  destruct (ai_driver x) as [a|] eqn:D; [|contradiction]. written E. pose proof (version_len _ _ E0).
  unfold opt_byte, opt_u16.
  split; [rewrite !app_length, !to_be_length; cbn [length]; lia|].
  pose proof (to_be_length 2 (u16 (odflt 0 (ad_activity_length a)))).
  pose proof (to_be_length 2 (u16 (odflt 0 (ad_vehicles a)))). found_by ltac:(unfold app_drv; rewrite ?D).
Qed.

Definition app2_drv {T} (f : app_driver_g2 -> T) (x : app_id_g2) : option T := option_map f (ai2_driver x).
Definition app_id_g2_parts : list (part app_id_g2) :=
  [at_ 0 1 ai2_type; at_ 1 2 ai2_version; at_ 3 1 (app2_drv ad2_events); at_ 4 1 (app2_drv ad2_faults);
   at_ 5 2 (app2_drv ad2_activity_length); at_ 7 2 (app2_drv ad2_vehicles); at_ 9 2 (app2_drv ad2_places);
   at_ 11 2 (app2_drv ad2_gnss); at_ 13 2 (app2_drv ad2_conditions); at_ 15 2 (app2_drv ad2_units)].

Lemma app_id_g2_edits :
  edits_stay (fun x => append_app_id_g2 (Some x)) (fun x => ai2_card_type x = DRIVER_CARD /\ ai2_driver x <> None)
    17 app_id_g2_parts.
Proof.
  apply (by_segments _ _ _ _ [fun x => Ok [type_byte (ai2_type x)]; fun x => version_bytes (ai2_version x);
    fun x => counted one (app2_drv ad2_events x); fun x => counted one (app2_drv ad2_faults x);
    fun x => counted two (app2_drv ad2_activity_length x); fun x => counted two (app2_drv ad2_vehicles x);
    fun x => counted two (app2_drv ad2_places x); fun x => counted two (app2_drv ad2_gnss x);
    fun x => counted two (app2_drv ad2_conditions x); fun x => counted two (app2_drv ad2_units x)]);
    [reflexivity|same_segment|].
  intros x out (V & O) E. unfold append_app_id_g2 in E. rewrite V in E. rewrite Z.eqb_refl in E.
  fold (version_bytes (ai2_version x)) in E. fold (type_byte (ai2_type x)) in E.
  destruct (ai2_driver x) as [a|] eqn:D; [|contradiction]. written E. pose proof (version_len _ _ E0).
  unfold opt_byte, opt_u16.
  split; [rewrite !app_length, !to_be_length; cbn [length]; lia|].
  pose proof (to_be_length 2 (u16 (odflt 0 (ad2_activity_length a)))).
  pose proof (to_be_length 2 (u16 (odflt 0 (ad2_vehicles a)))).
  pose proof (to_be_length 2 (u16 (odflt 0 (ad2_places a)))).
  pose proof (to_be_length 2 (u16 (odflt 0 (ad2_gnss a)))).
  pose proof (to_be_length 2 (u16 (odflt 0 (ad2_conditions a)))).
  pose proof (to_be_length 2 (u16 (odflt 0 (ad2_units a)))). found_by ltac:(unfold app2_drv; rewrite ?D).
Qed.

Definition app_v2_drv {T} (f : app_v2_counts -> T) (x : app_id_v2) : option T := option_map f (av2_driver x).
Definition app_id_v2_parts : list (part app_id_v2) :=
  [at_ 0 1 (app_v2_drv v2_border); at_ 1 1 (app_v2_drv v2_load); at_ 2 1 (app_v2_drv v2_load_type);
   at_ 3 1 (app_v2_drv v2_config)].

Lemma app_id_v2_edits :
  edits_stay (fun x => append_app_id_v2 (Some x)) (fun x => av2_card_type x = DRIVER_CARD /\ av2_driver x <> None)
    4 app_id_v2_parts.
Proof.
  apply (by_segments _ _ _ _ [fun x => Ok (one (odflt 0 (app_v2_drv v2_border x)));
    fun x => Ok (one (odflt 0 (app_v2_drv v2_load x))); fun x => Ok (one (odflt 0 (app_v2_drv v2_load_type x)));
    fun x => Ok (one (odflt 0 (app_v2_drv v2_config x)))]); [reflexivity|same_segment|].
  intros x out (V & O) E. unfold append_app_id_v2 in E. rewrite V in E. rewrite Z.eqb_refl in E.
  destruct (av2_driver x) as [a|] eqn:D; [|contradiction]. apply Ok_inj in E as <-.
  split; [reflexivity|]. found_by ltac:(unfold app_v2_drv; rewrite ?D).
Qed.

(** Parsed messages have the parts looked into. *)
Definition icc_ser {T} (f : ext_serial -> T) (x : icc) : option T := option_map f (icc_serial x).
Definition icc_emb {T} (f : embedder -> T) (x : icc) : option T := option_map f (icc_embedder x).
Definition icc_parts : list (part icc) :=
  [at_ 0 1 icc_clock_stop; at_ 1 4 (icc_ser es_serial); at_ 5 2 (icc_ser es_month_year); at_ 7 1 (icc_ser es_type);
   at_ 8 1 (icc_ser es_manufacturer); at_ 9 8 icc_approval; at_ 17 1 icc_personaliser;
   at_ 18 2 (icc_emb em_country); at_ 20 2 (icc_emb em_module); at_ 22 1 (icc_emb em_manufacturer);
   at_ 23 2 icc_ic_identifier].

Lemma append_month_year_len o b : append_month_year o = Ok b -> length b = 2%nat.
Proof.
  unfold append_month_year. intros E. apply bind_ok in E as (c & Ec & E). apply Ok_inj in E as <-.
  assert (L : length c = 2%nat).
  { destruct (0 <? _)%nat; [|now apply Ok_inj in Ec as <-]. unfold raw_canvas in Ec.
    destruct (_ =? 2)%nat eqn:Q; [|discriminate]. apply Ok_inj in Ec as <-. now apply Nat.eqb_eq. }
  now repeat apply set_len; [|lia|lia].
Qed.

(** The type of the equipment in a serial number, whose zero value is written
    without a look-up. *)
Definition serial_type (o : option Z) : res bytes :=
  match o with
  | None => Ok [0]
  | Some t => if t =? ENUM_UNSPECIFIED then Ok [0] else let* c := marshal_enum equipment_type_table t in Ok [c]
  end.

Lemma serial_fields e out : append_ext_serial_as_string (Some e) 8 = Ok out ->
  exists m t, append_month_year (es_month_year e) = Ok m /\ serial_type (Some (es_type e)) = Ok t /\
    length m = 2%nat /\ length t = 1%nat /\
    out = to_be 4 (es_serial e) ++ m ++ t ++ [u8 (es_manufacturer e)].
Proof.
  intros E. unfold append_ext_serial_as_string in E. apply bind_ok in E as (m & Em & E).
  pose proof (append_month_year_len _ _ Em) as Lm. rewrite Lm in E. cbn [Nat.leb] in E.
  assert (S4 : (if es_serial e =? 0 then zeros 8 else copy_into (zeros 8) 0 4 (to_be 4 (es_serial e))) =
               to_be 4 (es_serial e) ++ zeros 4).
  { destruct (Z.eqb_spec (es_serial e) 0) as [->|_]; [reflexivity|].
    pose proof (to_be_length 4 (es_serial e)) as L4. destruct (len4 _ L4) as (? & ? & ? & ? & ->). reflexivity. }
  rewrite S4 in E. clear S4. pose proof (to_be_length 4 (es_serial e)) as L4. cbn [serial_type].
  destruct (len4 _ L4) as (s0 & s1 & s2 & s3 & Q). rewrite Q in *. destruct (len2 _ Lm) as (m0 & m1 & ->).
  destruct (Z.eqb_spec (es_type e) ENUM_UNSPECIFIED) as [U|U].
  - cbn [bind] in E. apply Ok_inj in E as <-. exists [m0; m1], [0]. split; [exact Em|]. split; [reflexivity|].
    split; [reflexivity|]. split; [reflexivity|].
    destruct (Z.eqb_spec (es_manufacturer e) 0) as [->|_]; reflexivity.
  - apply bind_ok in E as (c & Ec & E). apply bind_ok in Ec as (t & Et & Ec). apply Ok_inj in Ec as <-.
    apply Ok_inj in E as <-. exists [m0; m1], [t]. split; [exact Em|]. split; [now rewrite Et|].
    split; [reflexivity|]. split; [reflexivity|].
    destruct (Z.eqb_spec (es_manufacturer e) 0) as [->|_]; reflexivity.
Qed.

Lemma icc_edits :
  edits_stay (fun x => append_icc (Some x))
    (fun x => ia5_of 8 (icc_approval x) /\ length (icc_ic_identifier x) = 2%nat /\
       exists e, icc_embedder x = Some e /\ ia5_of 2 (em_country e) /\ ia5_of 2 (em_module e)) 25 icc_parts.
Proof.
  apply (by_segments _ _ _ _ [
    fun x => let* c := marshal_enum clock_stop_mode_table (icc_clock_stop x) in Ok [c];
    fun x => Ok (to_be 4 (odflt 0 (icc_ser es_serial x)));
    fun x => append_month_year (odflt None (icc_ser es_month_year x));
    fun x => serial_type (icc_ser es_type x);
    fun x => Ok [u8 (odflt 0 (icc_ser es_manufacturer x))];
    fun x => append_ia5 (icc_approval x); fun x => Ok [u8 (icc_personaliser x)];
    fun x => append_ia5 (odflt None (icc_emb em_country x)); fun x => append_ia5 (odflt None (icc_emb em_module x));
    fun x => Ok [u8 (odflt 0 (icc_emb em_manufacturer x))]; fun x => Ok (icc_ic_identifier x)]);
    [reflexivity|same_segment|].
  intros x out (O1 & O2 & e & Ee & O3 & O4) E. unfold append_icc in E. cbn [odflt] in E. rewrite Ee in E.
  cbn [append_embedder] in E. apply bind_ok in E as (c & Ec & E). apply bind_ok in E as (s & Es & E).
  apply bind_ok in E as (a & Ea & E). apply bind_ok in E as (eb & Eb & E). apply Ok_inj in E as <-.
  apply bind_ok in Eb as (c1 & E1 & Eb). apply bind_ok in Eb as (c2 & E2 & Eb). apply Ok_inj in Eb as <-.
  destruct (icc_serial x) as [sn|] eqn:D; [|discriminate].
  destruct (serial_fields _ _ Es) as (m & t & Em & Et & Lm & Lt & ->).
  pose proof (O1 _ Ea). pose proof (O3 _ E1). pose proof (O4 _ E2). pose proof (to_be_length 4 (es_serial sn)).
  split; [rewrite !app_length; cbn [length]; lia|]. rewrite <- !app_assoc.
  found_by ltac:(unfold icc_ser, icc_emb; rewrite ?D, ?Ee).
Qed.

(** EF Identification: the two parts follow each other. *)
Definition id_of {T} (f : ident_card -> T) (x : identification) : option T := option_map f (ident_card_part x).
Definition ih_of {T} (f : ident_holder -> T) (x : identification) : option T := option_map f (ident_holder_part x).
Definition ident_parts : list (part identification) :=
  [at_ 0 1 (id_of id_nation); at_ 1 16 (id_of id_number); at_ 17 36 (id_of id_authority); at_ 53 4 (id_of id_issue);
   at_ 57 4 (id_of id_begin); at_ 61 4 (id_of id_expiry); at_ 65 36 (ih_of ih_surname);
   at_ 101 36 (ih_of ih_first_names); at_ 137 4 (ih_of ih_birth); at_ 141 2 (ih_of ih_language)].

Definition ident_sized (x : identification) : Prop :=
  (exists c, ident_card_part x = Some c /\ text_of 35 (id_authority c)) /\
  (exists h, ident_holder_part x = Some h /\ text_of 35 (ih_surname h) /\ text_of 35 (ih_first_names h) /\
     ia5_of 2 (ih_language h)).

Lemma append_date_len o b : append_date o = Ok b -> length b = 4%nat.
Proof.
  unfold append_date. intros E. apply bind_ok in E as (c & Ec & E). apply Ok_inj in E as <-.
  assert (L : length c = 4%nat).
  { unfold raw_canvas in Ec. destruct (date_raw _); [|now apply Ok_inj in Ec as <-].
    destruct (_ =? 4)%nat eqn:Q; [|discriminate]. apply Ok_inj in Ec as <-. now apply Nat.eqb_eq. }
  repeat apply set_len; auto; lia.
Qed.

Lemma number_bytes_len n o : length (number_bytes n o) = n.
Proof.
  destruct o as [s|]; cbn [number_bytes]; [|apply zeros_length].
  unfold pad_spaces. rewrite app_length, repeat_length, firstn_length. lia.
Qed.

Lemma append_card_number_len c : length (append_card_number c) = 16%nat.
Proof.
  destruct c; cbn [append_card_number]; [reflexivity| |]; rewrite app_length, number_bytes_len; reflexivity.
Qed.

Definition birth_bytes (o : option date) : res bytes :=
  match o with Some x => append_date (Some x) | None => Ok (zeros 4) end.

Lemma ident_edits : edits_stay (fun x => append_identification (Some x)) ident_sized 143 ident_parts.
Proof.
  apply (by_segments _ _ _ _ [
    fun x => let* c := marshal_enum nation_numeric_table (odflt 0 (id_of id_nation x)) in Ok [c];
    fun x => Ok (append_card_number (odflt CN_none (id_of id_number x)));
    fun x => append_string_value (odflt None (id_of id_authority x));
    fun x => append_time (odflt None (id_of id_issue x)); fun x => append_time (odflt None (id_of id_begin x));
    fun x => append_time (odflt None (id_of id_expiry x));
    fun x => append_string_value (odflt None (ih_of ih_surname x));
    fun x => append_string_value (odflt None (ih_of ih_first_names x));
    fun x => birth_bytes (odflt None (ih_of ih_birth x));
    fun x => append_ia5 (odflt None (ih_of ih_language x))]); [reflexivity|same_segment|].
  intros x out ((c & Dc & O1) & (h & Dh & O2 & O3 & O4)) E. unfold append_identification in E. rewrite Dc, Dh in E.
  apply bind_ok in E as (bc & Ec & E). apply bind_ok in E as (bh & Eh & E). apply Ok_inj in E as <-.
  cbn [append_card_identification] in Ec. destruct (_ =? _); [discriminate|]. written Ec.
  cbn [append_holder_identification] in Eh. fold (birth_bytes (ih_birth h)) in Eh. written Eh.
  pose proof (O1 _ E0). pose proof (O2 _ E4). pose proof (O3 _ E5). pose proof (O4 _ E7).
  pose proof (append_time_len _ _ E1). pose proof (append_time_len _ _ E2). pose proof (append_time_len _ _ E3).
  assert (length b6 = 4%nat).
  { destruct (ih_birth h); [now apply (append_date_len _ _ E6)|now apply Ok_inj in E6 as <-]. }
  pose proof (append_card_number_len (id_number c)).
  split; [rewrite !app_length; cbn [length]; lia|]. rewrite <- !app_assoc.
  found_by ltac:(unfold id_of, ih_of; rewrite ?Dc, ?Dh; cbn [option_map odflt]).
Qed.

(** ** Records *)

(** The registration is its nation and its number, each in its place. *)
Definition reg_of {X T} (r : X -> option vreg) (f : vreg -> T) (x : X) : option T := option_map f (r x).
Definition event_parts : list (part event) :=
  [at_ 0 1 ev_type; at_ 1 4 ev_begin; at_ 5 4 ev_end; at_ 9 1 (reg_of ev_vehicle vr_nation);
   at_ 10 14 (reg_of ev_vehicle vr_number)].

Definition plate_bytes (o : option string_value) : res bytes :=
  append_string_value (Some (odflt (mkSV None 2 (Some 13) []) o)).

Lemma vreg_fields v b : append_vreg (Some v) = Ok b -> vreg_of (Some v) ->
  exists n s, marshal_enum nation_numeric_table (vr_nation v) = Ok n /\ plate_bytes (vr_number v) = Ok s /\
    length s = 14%nat /\ b = [n] ++ s.
Proof.
  intros E O. pose proof (O _ E) as L. unfold append_vreg in E. destruct (_ =? _); [discriminate|].
  apply bind_ok in E as (n & En & E). apply bind_ok in E as (s & Es & E). apply Ok_inj in E as <-.
  exists n, s. split; [exact En|]. split; [unfold plate_bytes; now destruct (vr_number v)|].
  cbn [length] in L. split; [lia|reflexivity].
Qed.

Lemma event_edits :
  edits_stay append_event (fun x => ev_valid x = true /\ vreg_of (ev_vehicle x)) 24 event_parts.
Proof.
  apply (by_segments _ _ _ _ [fun x => Ok [marshal_enum_or_zero event_fault_type_table (ev_type x)];
    fun x => append_time (ev_begin x); fun x => append_time (ev_end x);
    fun x => let* n := marshal_enum nation_numeric_table (odflt 0 (reg_of ev_vehicle vr_nation x)) in Ok [n];
    fun x => plate_bytes (odflt None (reg_of ev_vehicle vr_number x))]);
    [reflexivity|same_segment|].
  intros x out (V & O) E. unfold append_event in E. rewrite V in E. cbn [negb] in E. written E.
  destruct (ev_vehicle x) as [v|] eqn:D; [|discriminate].
  destruct (vreg_fields _ _ E2 O) as (n & s & En & Es & Ls & ->).
  pose proof (append_time_len _ _ E0). pose proof (append_time_len _ _ E1).
  split; [rewrite !app_length; cbn [length]; lia|].
  found_by ltac:(unfold reg_of; rewrite ?D; cbn [option_map odflt]).
Qed.

Definition gnss_of {X T} (g : X -> option gnss_place) (f : gnss_place -> T) (x : X) : option T := option_map f (g x).
Definition gnss_record_parts : list (part gnss_record) :=
  [at_ 0 4 gr_time; at_ 4 4 (gnss_of gr_place gp_time); at_ 8 1 (gnss_of gr_place gp_accuracy);
   at_ 9 6 (gnss_of gr_place gp_geo); at_ 15 3 gr_odometer].

Lemma gnss_record_edits :
  edits_stay append_gnss_record (fun x => gr_place x <> None) 18 gnss_record_parts.
Proof.
  apply (by_segments _ _ _ _ [fun x => append_time (gr_time x);
    fun x => append_time (odflt None (gnss_of gr_place gp_time x));
    fun x => Ok [u8 (odflt 0 (gnss_of gr_place gp_accuracy x))];
    fun x => Ok (append_geo (odflt None (gnss_of gr_place gp_geo x)));
    fun x => Ok (append_odometer (gr_odometer x))]); [reflexivity|same_segment|].
  intros x out O E. unfold append_gnss_record in E. destruct (gr_place x) as [g|] eqn:D; [|contradiction].
  written E. cbn [append_gnss_place] in E1. written E1.
  pose proof (append_time_len _ _ E0). pose proof (append_time_len _ _ E).
  pose proof (append_geo_len (gp_geo g)). pose proof (odometer_len (gr_odometer x)).
  split; [rewrite !app_length; cbn [length]; lia|]. rewrite <- !app_assoc.
  found_by ltac:(unfold gnss_of; rewrite ?D; cbn [option_map odflt]).
Qed.

Definition unit_parts : list (part unit_record) :=
  [at_ 0 4 ur_time; at_ 4 1 ur_manufacturer; at_ 5 1 ur_device; at_ 6 4 ur_version].

Lemma unit_edits : edits_stay append_unit_record (fun _ => True) 10 unit_parts.
Proof.
  apply (by_segments _ _ _ _ [fun x => append_time (ur_time x); fun x => Ok [u8 (ur_manufacturer x)];
    fun x => Ok (pad_copy 1 (ur_device x)); fun x => Ok (pad_copy 4 (ur_version x))]); [reflexivity|same_segment|].
  intros x out _ E. unfold append_unit_record in E. written E.
  pose proof (append_time_len _ _ E0). pose proof (pad_copy_len 1 (ur_device x)).
  pose proof (pad_copy_len 4 (ur_version x)). split; [rewrite !app_length; cbn [length]; lia|found].
Qed.

(** A record painted over preserved bytes: every byte belongs to a field. *)
Definition place_g2_parts : list (part place_g2) :=
  [at_ 0 4 pl2_time; at_ 4 1 (fun x => (pl2_entry x, pl2_entry_unrecognized x));
   at_ 5 1 (fun x => (pl2_country x, pl2_country_unrecognized x)); at_ 6 1 pl2_region; at_ 7 3 pl2_odometer;
   at_ 10 4 (gnss_of pl2_gnss gp_time); at_ 14 1 (gnss_of pl2_gnss gp_accuracy); at_ 15 6 (gnss_of pl2_gnss gp_geo)].

Lemma place_g2_edits :
  edits_stay append_place_g2 (fun x => pl2_region x <> [] /\ pl2_gnss x <> None) 21 place_g2_parts.
Proof.
  apply (by_segments _ _ _ _ [fun x => append_time (pl2_time x);
    fun x => Ok [place_enum_byte entry_type_daily_work_period_table (fst (pl2_entry x, pl2_entry_unrecognized x))
                   (snd (pl2_entry x, pl2_entry_unrecognized x))];
    fun x => Ok [place_enum_byte nation_numeric_table (fst (pl2_country x, pl2_country_unrecognized x))
                   (snd (pl2_country x, pl2_country_unrecognized x))];
    fun x => Ok [hd 0 (pl2_region x)]; fun x => Ok (append_odometer (pl2_odometer x));
    fun x => append_time (odflt None (gnss_of pl2_gnss gp_time x));
    fun x => Ok [u8 (odflt 0 (gnss_of pl2_gnss gp_accuracy x))];
    fun x => Ok (append_geo (odflt None (gnss_of pl2_gnss gp_geo x)))]); [reflexivity| |].
  { every ltac:(intros ? ? Q; cbv beta in *; first [congruence|now rewrite Q]). }
  intros x out (R & G) E.
  destruct (pl2_gnss x) as [g|] eqn:D; [|contradiction]. destruct (pl2_region x) as [|r rest] eqn:Dr; [contradiction|].
  assert (W : exists t b, append_time (pl2_time x) = Ok t /\ append_gnss_place (Some g) = Ok b /\
    out = t ++ [place_enum_byte entry_type_daily_work_period_table (pl2_entry x) (pl2_entry_unrecognized x)] ++
          [place_enum_byte nation_numeric_table (pl2_country x) (pl2_country_unrecognized x)] ++ [r] ++
          append_odometer (pl2_odometer x) ++ b).
  { unfold append_place_g2 in E. rewrite D, Dr in E. apply bind_ok in E as (c & Ec & E).
    apply raw_canvas_nonempty_len in Ec. apply bind_ok in E as (t & Et & E). apply bind_ok in E as (b & Eb & E).
    exists t, b. split; [exact Et|]. split; [exact Eb|]. apply append_time_len in Et. apply append_gnss_len in Eb.
    apply Ok_inj in E as <-.
    rewrite <- (firstn_skipn 10 c). assert (L1 : length (firstn 10 c) = 10%nat) by (rewrite firstn_length; lia).
    assert (L2 : length (skipn 10 c) = 11%nat) by (rewrite skipn_length; lia).
    destruct (len10 _ L1) as (? & ? & ? & ? & ? & ? & ? & ? & ? & ? & ->).
    destruct (len11 _ L2) as (? & ? & ? & ? & ? & ? & ? & ? & ? & ? & ? & ->).
    destruct (len4 _ Et) as (? & ? & ? & ? & ->).
    destruct (len11 _ Eb) as (? & ? & ? & ? & ? & ? & ? & ? & ? & ? & ? & ->).
    destruct (len3 _ (odometer_len (pl2_odometer x))) as (? & ? & ? & ->). reflexivity. }
  destruct W as (t & b & Et & Eb & ->). cbn [append_gnss_place] in Eb. written Eb.
  pose proof (append_time_len _ _ Et). pose proof (append_time_len _ _ E0).
  pose proof (append_geo_len (gp_geo g)). pose proof (odometer_len (pl2_odometer x)).
  split; [rewrite !app_length; cbn [length]; lia|].
  found_by ltac:(unfold gnss_of; rewrite ?D, ?Dr; cbn [option_map odflt hd fst snd]).
Qed.

Definition vehicle_g2_parts : list (part card_vehicle_g2) :=
  [at_ 0 3 cv2_odo_begin; at_ 3 3 cv2_odo_end; at_ 6 4 cv2_first_use; at_ 10 4 cv2_last_use;
   at_ 14 1 (reg_of cv2_reg vr_nation); at_ 15 14 (reg_of cv2_reg vr_number); at_ 29 2 cv2_counter; at_ 31 17 cv2_vin].

Lemma vehicle_g2_edits :
  edits_stay append_card_vehicle_g2
    (fun x => vreg_of (cv2_reg x) /\ forall b, append_bcd_string (cv2_counter x) = Ok b -> length b = 2%nat)
    48 vehicle_g2_parts.
Proof.
  apply (by_segments _ _ _ _ [fun x => Ok (append_odometer (cv2_odo_begin x));
    fun x => Ok (append_odometer (cv2_odo_end x)); fun x => append_time (cv2_first_use x);
    fun x => append_time (cv2_last_use x);
    fun x => let* n := marshal_enum nation_numeric_table (odflt 0 (reg_of cv2_reg vr_nation x)) in Ok [n];
    fun x => plate_bytes (odflt None (reg_of cv2_reg vr_number x)); fun x => append_bcd_string (cv2_counter x);
    fun x => Ok (pad_spaces 17 (firstn 17 (cv2_vin x)))]); [reflexivity|same_segment|].
  intros x out (O1 & O2) E. unfold append_card_vehicle_g2 in E. apply bind_ok in E as (c & Ec & E).
  apply raw_canvas_nonempty_len in Ec. written E.
  destruct (cv2_reg x) as [v|] eqn:D; [|discriminate].
  pose proof (O1 _ E2) as Lv. destruct (vreg_fields _ _ E2 O1) as (n & s & En & Es & Ls & ->).
  pose proof (append_time_len _ _ E0) as T1. pose proof (append_time_len _ _ E1) as T2. pose proof (O2 _ E3) as Lb.
  pose proof (odometer_len (cv2_odo_begin x)) as M1. pose proof (odometer_len (cv2_odo_end x)) as M2.
  assert (Lp : length (pad_spaces 17 (firstn 17 (cv2_vin x))) = 17%nat)
    by (unfold pad_spaces; rewrite app_length, repeat_length, firstn_length; lia).
  set (vin := pad_spaces 17 _) in *. set (o1 := append_odometer (cv2_odo_begin x)) in *.
  set (o2 := append_odometer (cv2_odo_end x)) in *.
  assert (W : copy_into (copy_into (copy_into (copy_into (copy_into (copy_into (copy_into c 0 3 o1) 3 6 o2) 6 10 b)
       10 14 b0) 14 29 ([n] ++ s)) 29 31 b2) 31 48 vin =
     o1 ++ o2 ++ b ++ b0 ++ [n] ++ s ++ b2 ++ vin).
  { clearbody vin o1 o2. rewrite paint_first by lia.
    repeat (rewrite paint_next by (rewrite ?app_length, ?skipn_length; cbn [length]; lia)).
    rewrite skipn_all2 by (rewrite ?skipn_length; lia). rewrite app_nil_r, <- !app_assoc. reflexivity. }
  rewrite W. split; [rewrite !app_length; cbn [length]; lia|]. subst vin o1 o2.
  found_by ltac:(unfold reg_of; rewrite ?D; cbn [option_map odflt]).
Qed.

(** ** Lists of records *)

(** Records of [size] bytes each, after [h] bytes: each is found at its place, so
    that editing one, or adding some at the end, leaves the others alone. *)
Lemma record_found {A} (ap : A -> res bytes) size rs : forall out,
  concat_res ap rs = Ok out -> Forall (fun r => forall b, ap r = Ok b -> length b = size) rs ->
  length out = (size * length rs)%nat /\
  forall i r, nth_error rs i = Some r -> ap r = Ok (sub out (size * i) size).
Proof.
  induction rs as [|a rs IH]; intros out E Hs.
  - cbn [concat_res] in E. apply Ok_inj in E as <-. split; [cbn [length]; lia|]. intros [|i] r N; discriminate.
  - cbn [concat_res] in E. apply bind_ok in E as (b & Eb & E). apply bind_ok in E as (t & Et & E).
    apply Ok_inj in E as <-. apply Forall_cons_iff in Hs as [Ha Hs]. pose proof (Ha _ Eb) as Lb.
    destruct (IH _ Et Hs) as [Lt Ht]. split; [rewrite app_length; cbn [length]; lia|].
    intros [|i] r N; cbn [nth_error] in N.
    + injection N as <-. rewrite Nat.mul_0_r, sub_head by auto. exact Eb.
    + rewrite (Ht _ _ N). f_equal. rewrite (sub_at b t (size * S i) size size) by (auto; lia).
      now replace (size * S i - size)%nat with (size * i)%nat by lia.
Qed.

(** A record in use keeps its registration in fifteen bytes; one not in use is
    the bytes preserved. *)
Definition event_sized (r : event) : Prop :=
  if ev_valid r then vreg_of (ev_vehicle r) else length (ev_raw r) = 24%nat.

Definition records_found : Prop :=
  (forall rs out, append_events (Some rs) = Ok out -> Forall event_sized rs ->
     length out = (24 * length rs)%nat /\
     forall i r, nth_error rs i = Some r -> append_event r = Ok (sub out (24 * i) 24)) /\
  (forall x out, append_gnss_places (Some x) = Ok out ->
     length out = (2 + 18 * length (gps_records x))%nat /\
     (0 <= gps_newest x < 65536 -> be (sub out 0 2) = gps_newest x) /\
     forall i r, nth_error (gps_records x) i = Some r -> append_gnss_record r = Ok (sub out (2 + 18 * i) 18)) /\
  (forall x out, append_units_used (Some x) = Ok out ->
     length out = (2 + 10 * length (uu_records x))%nat /\
     (0 <= uu_newest x < 65536 -> be (sub out 0 2) = uu_newest x) /\
     forall i r, nth_error (uu_records x) i = Some r -> append_unit_record r = Ok (sub out (2 + 10 * i) 10)).

Lemma event_size r : event_sized r -> forall b, append_event r = Ok b -> length b = 24%nat.
Proof.
  unfold event_sized, append_event. destruct (ev_valid r); cbn [negb]; intros O b E; [|now apply Ok_inj in E as <-].
  written E. rewrite !app_length, (append_time_len _ _ E0), (append_time_len _ _ E1), (O _ E2). reflexivity.
Qed.

Lemma gnss_record_size r b : append_gnss_record r = Ok b -> length b = 18%nat.
Proof.
  unfold append_gnss_record. intros E. written E.
  now rewrite !app_length, (append_time_len _ _ E0), (append_gnss_len _ _ E1), odometer_len.
Qed.

Lemma after_pointer (p t : bytes) i n : length p = 2%nat -> sub (p ++ t) (2 + i) n = sub t i n.
Proof. intros L. rewrite (sub_at p t (2 + i) n 2) by (auto; lia). now replace (2 + i - 2)%nat with i by lia. Qed.

Lemma records_found_ok : records_found.
Proof.
  split; [|split].
  - intros rs out E Hs. apply (record_found append_event 24 rs out E).
    eapply Forall_impl; [|exact Hs]. exact event_size.
  - intros x out E. cbn [append_gnss_places] in E. apply bind_ok in E as (t & Et & E). apply Ok_inj in E as <-.
    pose proof (to_be_length 2 (u16 (gps_newest x))) as L2.
    destruct (record_found append_gnss_record 18 _ t Et) as [Lt Ht].
    { apply Forall_forall. intros r _. exact (gnss_record_size r). }
    split; [rewrite app_length; lia|]. split.
    { intros R. rewrite sub_head by auto. now apply pointer_back. }
    intros i r N. rewrite after_pointer by auto. now apply Ht.
  - intros x out E. cbn [append_units_used] in E. apply bind_ok in E as (t & Et & E). apply Ok_inj in E as <-.
    pose proof (to_be_length 2 (u16 (uu_newest x))) as L2.
    destruct (record_found append_unit_record 10 _ t Et) as [Lt Ht].
    { apply Forall_forall. intros r _ b Eb. unfold append_unit_record in Eb. written Eb.
      now rewrite !app_length, (append_time_len _ _ E), !pad_copy_len. }
    split; [rewrite app_length; lia|]. split.
    { intros R. rewrite sub_head by auto. now apply pointer_back. }
    intros i r N. rewrite after_pointer by auto. now apply Ht.
Qed.

(** ** All together *)

Theorem C65_other_files_partial :
  edits_stay (fun x => append_ic (Some x)) (fun _ => True) 8 ic_parts /\
  edits_stay (fun x => append_icc (Some x))
    (fun x => ia5_of 8 (icc_approval x) /\ length (icc_ic_identifier x) = 2%nat /\
       exists e, icc_embedder x = Some e /\ ia5_of 2 (em_country e) /\ ia5_of 2 (em_module e)) 25 icc_parts /\
  edits_stay (fun x => append_current_usage (Some x)) (fun x => vreg_of (cu_vehicle x)) 19 current_usage_parts /\
  edits_stay (fun x => append_driving_licence (Some x))
    (fun x => text_of 35 (dl_authority x) /\ ia5_of 16 (dl_number x)) 53 licence_parts /\
  edits_stay (fun x => append_control_activity (Some x))
    (fun x => ca_valid x = true /\ vreg_of (ca_vehicle x) /\
       forall b, append_full_card_number_as_string (control_number x) = Ok b -> length b = 18%nat) 46 control_parts /\
  edits_stay (fun x => append_app_id (Some x)) (fun x => ai_card_type x = DRIVER_CARD /\ ai_driver x <> None)
    10 app_id_parts /\
  edits_stay (fun x => append_app_id_g2 (Some x)) (fun x => ai2_card_type x = DRIVER_CARD /\ ai2_driver x <> None)
    17 app_id_g2_parts /\
  edits_stay (fun x => append_app_id_v2 (Some x)) (fun x => av2_card_type x = DRIVER_CARD /\ av2_driver x <> None)
    4 app_id_v2_parts /\
  edits_stay (fun x => append_identification (Some x)) ident_sized 143 ident_parts /\
  edits_stay append_event (fun x => ev_valid x = true /\ vreg_of (ev_vehicle x)) 24 event_parts /\
  edits_stay append_gnss_record (fun x => gr_place x <> None) 18 gnss_record_parts /\
  edits_stay append_unit_record (fun _ => True) 10 unit_parts /\
  edits_stay append_place_g2 (fun x => pl2_region x <> [] /\ pl2_gnss x <> None) 21 place_g2_parts /\
  edits_stay append_card_vehicle_g2
    (fun x => vreg_of (cv2_reg x) /\ forall b, append_bcd_string (cv2_counter x) = Ok b -> length b = 2%nat)
    48 vehicle_g2_parts /\
  records_found.
Proof.
  split; [exact ic_edits|]. split; [exact icc_edits|]. split; [exact current_usage_edits|].
  split; [exact licence_edits|]. split; [exact control_edits|]. split; [exact app_id_edits|].
  split; [exact app_id_g2_edits|]. split; [exact app_id_v2_edits|]. split; [exact ident_edits|].
  split; [exact event_edits|]. split; [exact gnss_record_edits|]. split; [exact unit_edits|].
  split; [exact place_g2_edits|]. split; [exact vehicle_g2_edits|]. exact records_found_ok.
Qed.
Print Assumptions C65_other_files_partial.

(** An event as parsed, and the same event with another end and another nation. *)
Definition event_demo : bytes :=
  [1; 95;0;0;0; 95;0;1;0; 13; 1;65;66;67;32;32;32;32;32;32;32;32;32;32].

Example C65_other_files_example : exists r out,
  unmarshal_event (fun _ b => b) (event_demo, event_demo) = Ok r /\ append_event r = Ok event_demo /\
  ev_valid r = true /\ vreg_of (ev_vehicle r) /\
  append_event (mkEv true (ev_raw r) (ev_type r) (ev_begin r) (Some (mkTs 1593836288 0))
    (option_map (fun v => mkVR FINLAND (vr_number v)) (ev_vehicle r))) = Ok out /\
  out = [1; 95;0;0;0; 95;0;3;0; 18; 1;65;66;67;32;32;32;32;32;32;32;32;32;32].
Proof.
  eexists. eexists. split; [vm_compute; reflexivity|]. split; [vm_compute; reflexivity|]. split; [reflexivity|].
  split; [intros b E; vm_compute in E; apply Ok_inj in E as <-; reflexivity|].
  split; [vm_compute; reflexivity|]. reflexivity.
Qed.

(** ** Edits that are lost *)

(** While the bytes of the ring are preserved, the days are not looked at: all of
    them can be removed, and the file is written as it was read.  The same holds for
    the fields of an event record and of a control activity that are marked as not
    in use, and for a surname whose bytes are preserved. *)
Theorem C65_lost_refuted :
  (forall a b, act_raw a <> [] -> act_raw b = act_raw a -> act_oldest b = act_oldest a -> act_newest b = act_newest a ->
     append_activity (Some b) = append_activity (Some a)) /\
  (exists d a, unmarshal_activity d = Ok a /\ length (act_days a) = 2%nat /\
     append_activity (Some (mkAct (act_oldest a) (act_newest a) (act_raw a) [])) = Ok d) /\
  (exists d r, unmarshal_event (fun _ b => b) (d, d) = Ok r /\
     append_event (mkEv (ev_valid r) (ev_raw r) 1 (Some (mkTs 1593836288 0)) None None) = Ok d /\ append_event r = Ok d) /\
  (exists d x, unmarshal_control_activity (fun _ b => b) d = Ok x /\
     append_control_activity (Some (mkCA (ca_valid x) (ca_raw x) (ca_type x) (Some (mkTs 1593836288 0)) (ca_card x)
       (ca_vehicle x) (ca_begin x) (ca_end x))) = Ok d) /\
  (forall h s v, ih_surname h = Some s -> sv_raw s <> None -> odflt [] (sv_raw s) <> [] ->
     append_holder_identification (Some (mkIH (Some (mkSV (sv_raw s) (sv_encoding s) (sv_length s) v))
       (ih_first_names h) (ih_birth h) (ih_language h))) = append_holder_identification (Some h)).
Proof.
  split; [|split; [|split; [|split]]].
  - intros a b N R O W. unfold append_activity. rewrite R, O, W.
    destruct (act_raw a) as [|z t]; [contradiction|]. reflexivity.
  - exists ([0; 20; 0; 4] ++ sample_ring).
    eexists. split; [vm_compute; reflexivity|]. split; vm_compute; reflexivity.
  - exists (zeros 24). eexists. split; [vm_compute; reflexivity|]. split; vm_compute; reflexivity.
  - exists (zeros 46). eexists. split; vm_compute; reflexivity.
  - intros [su f b l] s v E N Z0. cbn [ih_surname] in E. subst su. cbn [append_holder_identification ih_surname ih_first_names
      ih_birth ih_language append_string_value sv_raw sv_encoding sv_length sv_value].
    destruct (sv_raw s) as [[|z t]|]; [contradiction| |contradiction]. reflexivity.
Qed.
Print Assumptions C65_lost_refuted.
