(** C63, C64, C70, C71: what anonymised files reveal and whether they are still
    files. *)

From Coq Require Import String.
From Verif Require Import Base Enums DDScalar Chunks Utf8 DDString DDRecord CardRecords CardIdent Anonymize.
From Verif Require Import P_Scalar P_Basic P_String Field P_Record P_Records P_Anonymize.
Local Open Scope list_scope.

(** ** C63: identification *)

(** Both absent, or both present and related. *)
Definition both {A} (R : A -> A -> Prop) (a b : option A) : Prop :=
  match a, b with
  | None, None => True
  | Some x, Some y => R x y
  | _, _ => False
  end.

(** Two identification messages that differ only in personal fields: the type,
    the issuing nation, the languages and the indices of an owner number agree;
    names, numbers, authority, dates and signature are free. *)
Definition same_but_personal (x y : full_ident) : Prop :=
  fi_type x = fi_type y /\
  both (fun c d =>
          fc_nation c = fc_nation d /\
          both (fun _ _ => True) (fc_driver c) (fc_driver d) /\
          both (fun o p => oi_consecutive o = oi_consecutive p /\ oi_replacement o = oi_replacement p /\
                           oi_renewal o = oi_renewal p) (fc_owner c) (fc_owner d))
       (fi_card x) (fi_card y) /\
  both (fun h k => ih_language h = ih_language k) (fi_driver x) (fi_driver y) /\
  both (fun h k => bh_language h = bh_language k) (fi_workshop x) (fi_workshop y) /\
  both (fun h k => bh_language h = bh_language k) (fi_control x) (fi_control y) /\
  both (fun h k => ch_language h = ch_language k) (fi_company x) (fi_company y).

Theorem C63_nothing_personal :
  (forall x y, same_but_personal x y -> anonymize_identification x = anonymize_identification y) /\
  (forall x, anonymize_identification (anonymize_identification x) = anonymize_identification x).
Proof.
  split.
  - intros [t c d w k m s v] [t' c' d' w' k' m' s' v'] (T & C & D & W & K & M).
    cbn [fi_type fi_card fi_driver fi_workshop fi_control fi_company] in *. subst t'.
    unfold anonymize_identification. cbn [fi_type fi_card fi_driver fi_workshop fi_control fi_company].
    f_equal.
    + destruct c as [[n dr ow au i b e]|], c' as [[n' dr' ow' au' i' b' e']|]; cbn in C; try contradiction; [|reflexivity].
      destruct C as (-> & D1 & O1). cbn [option_map]. f_equal. unfold anonymize_card_part.
      cbn [fc_nation fc_driver fc_owner]. f_equal.
      * destruct dr, dr'; cbn in D1; try contradiction; reflexivity.
      * destruct ow as [o|], ow' as [o'|]; cbn in O1; try contradiction; [|reflexivity].
        destruct O1 as (O1 & O2 & O3). cbn [option_map]. unfold anonymize_owner. now rewrite O1, O2, O3.
    + destruct d as [h|], d' as [h'|]; cbn in D; try contradiction; [|reflexivity].
      cbn [option_map]. unfold anonymize_driver_holder. now rewrite D.
    + destruct w as [h|], w' as [h'|]; cbn in W; try contradiction; [|reflexivity].
      cbn [option_map]. unfold anonymize_body_holder. now rewrite W.
    + destruct k as [h|], k' as [h'|]; cbn in K; try contradiction; [|reflexivity].
      cbn [option_map]. unfold anonymize_body_holder. now rewrite K.
    + destruct m as [h|], m' as [h'|]; cbn in M; try contradiction; [|reflexivity].
      cbn [option_map]. unfold anonymize_company_holder. now rewrite M.
  - intros [t c d w k m s v]. unfold anonymize_identification.
    cbn [fi_type fi_card fi_driver fi_workshop fi_control fi_company]. f_equal.
    + destruct c as [[n dr ow au i b e]|]; [|reflexivity]. cbn [option_map]. f_equal.
      unfold anonymize_card_part. cbn [fc_nation fc_driver fc_owner]. f_equal.
      * destruct dr; reflexivity.
      * destruct ow; reflexivity.
    + destruct (t =? CARD_TYPE_DRIVER); [|reflexivity]. destruct d; reflexivity.
    + destruct (t =? CARD_TYPE_WORKSHOP); [|reflexivity]. destruct w; reflexivity.
    + destruct (t =? CARD_TYPE_CONTROL); [|reflexivity]. destruct k; reflexivity.
    + destruct (t =? CARD_TYPE_COMPANY); [|reflexivity]. destruct m; reflexivity.
Qed.

(** What stays: the type, the nation, which of the two numbers there is, the indices of
    an owner number and the language of the holder that goes with the type of the card
    (1 driver, 2 workshop, 3 control, 4 company).  The other holders are gone, and so is
    everything about the signature. *)
Theorem C63_kept :
  forall x, let y := anonymize_identification x in
  let only_if {A} (t : Z) (o : option A) := if fi_type x =? t then o else None in
  fi_type y = fi_type x /\
  both (fun c d =>
          fc_nation c = fc_nation d /\
          both (fun _ _ => True) (fc_driver c) (fc_driver d) /\
          both (fun o p => oi_consecutive o = oi_consecutive p /\ oi_replacement o = oi_replacement p /\
                           oi_renewal o = oi_renewal p) (fc_owner c) (fc_owner d))
       (fi_card x) (fi_card y) /\
  both (fun h k => ih_language h = ih_language k) (only_if 1 (fi_driver x)) (fi_driver y) /\
  both (fun h k => bh_language h = bh_language k) (only_if 2 (fi_workshop x)) (fi_workshop y) /\
  both (fun h k => bh_language h = bh_language k) (only_if 3 (fi_control x)) (fi_control y) /\
  both (fun h k => ch_language h = ch_language k) (only_if 4 (fi_company x)) (fi_company y) /\
  fi_signature y = None /\ fi_verified y = false.
Proof.
  intros [t c d w k m s v]. unfold anonymize_identification. cbv zeta.
  cbn [fi_type fi_card fi_driver fi_workshop fi_control fi_company fi_signature fi_verified].
  unfold CARD_TYPE_DRIVER, CARD_TYPE_WORKSHOP, CARD_TYPE_CONTROL, CARD_TYPE_COMPANY.
  split; [reflexivity|]. split.
  { destruct c as [[n dr ow au i b e]|]; [|exact I]. cbn. split; [reflexivity|].
    split; [destruct dr; exact I|]. destruct ow; [cbn; auto|exact I]. }
  split; [destruct (t =? 1), d; try exact I; reflexivity|].
  split; [destruct (t =? 2), w; try exact I; reflexivity|].
  split; [destruct (t =? 3), k; try exact I; reflexivity|].
  split; [destruct (t =? 4), m; try exact I; reflexivity|].
  split; reflexivity.
Qed.

(** What is put in: every name, address and authority that is there afterwards reads as
    one of these texts, and is written as 36 bytes, a code page and the text followed by
    spaces; a number of a driver has 14 characters, and one of an owner 13. *)
Definition placeholders : list string :=
  ["TEST_AUTHORITY"; "TEST_SURNAME"; "TEST_FIRSTNAME"; "TEST_WORKSHOP"; "TEST_CONTROL_BODY"; "TEST_COMPANY"; "TEST_ADDRESS"]%string.

Definition stands_in (o : option string_value) : Prop :=
  exists t page, In t placeholders /\ option_map sv_value o = Some (lit t) /\
    append_string_value o = Ok (page :: lit t ++ repeat 32 (35 - String.length t)).

Theorem C63_texts :
  forall x, let y := anonymize_identification x in
  (forall c, fi_card y = Some c -> stands_in (fc_authority c) /\
     (forall d, fc_driver c = Some d -> append_ia5 (dn_number d) = Ok (lit "DRIVER00000001") /\ dn_replacement d = None /\ dn_renewal d = None) /\
     (forall o, fc_owner c = Some o -> append_ia5 (oi_number o) = Ok (lit "OWNER00000001"))) /\
  (forall h, fi_driver y = Some h -> stands_in (ih_surname h) /\ stands_in (ih_first_names h) /\
     append_date (ih_birth h) = Ok [32; 0; 1; 1]) /\
  (forall h, fi_workshop y = Some h \/ fi_control y = Some h ->
     stands_in (bh_name h) /\ stands_in (bh_address h) /\ stands_in (bh_surname h) /\ stands_in (bh_first_names h)) /\
  (forall h, fi_company y = Some h -> stands_in (ch_name h) /\ stands_in (ch_address h)).
Proof.
  assert (P : forall t, In t placeholders -> stands_in (Some (test_string 35 t))).
  { intros t I. cbn [placeholders In] in I. exists t.
    destruct I as [<-|[<-|[<-|[<-|[<-|[<-|[<-|[]]]]]]]]; eexists; (split; [cbn; tauto|]); (split; [reflexivity|]); vm_compute; reflexivity. }
  intros [t c d w k m s v] y. subst y. unfold anonymize_identification.
  cbn [fi_type fi_card fi_driver fi_workshop fi_control fi_company].
  split; [|split; [|split]].
  - intros c' E. destruct c as [c|]; [|discriminate E]. injection E as <-. unfold anonymize_card_part. cbn [fc_authority fc_driver fc_owner].
    split; [apply P; cbn; tauto|]. split.
    + intros x E. destruct (fc_driver c); [|discriminate E]. injection E as <-. repeat split; reflexivity.
    + intros o E. destruct (fc_owner c); [|discriminate E]. injection E as <-. reflexivity.
  - intros h E. destruct (t =? CARD_TYPE_DRIVER); [|discriminate E]. destruct d; [|discriminate E]. injection E as <-.
    split; [apply P; cbn; tauto|]. split; [apply P; cbn; tauto|]. reflexivity.
  - intros h [E|E].
    + destruct (t =? CARD_TYPE_WORKSHOP); [|discriminate E]. destruct w; [|discriminate E]. injection E as <-.
      repeat split; apply P; cbn; tauto.
    + destruct (t =? CARD_TYPE_CONTROL); [|discriminate E]. destruct k; [|discriminate E]. injection E as <-.
      repeat split; apply P; cbn; tauto.
  - intros h E. destruct (t =? CARD_TYPE_COMPANY); [|discriminate E]. destruct m; [|discriminate E]. injection E as <-.
    split; apply P; cbn; tauto.
Qed.

Example C63_kept_applies :
  let lang := mkSV None 4 (Some 2) (lit "fi") in
  let x := mkFI 2 (Some (mkFC 18 None (Some (mkOI None None None None)) None None None None))
             (Some (mkIH None None None (Some (mkIA5 None (Some 2) (lit "fi")))))
             (Some (mkBH None None None None (Some lang))) None None (Some [1; 2]) true in
  let y := anonymize_identification x in
  fi_driver y = None /\ option_map bh_language (fi_workshop y) = Some (Some lang) /\
  fi_signature x <> fi_signature y.
Proof. cbn. repeat split; discriminate. Qed.

Lemma identification_parts cm d x :
  unmarshal_identification cm d = Ok x ->
  exists t n a i b e s f bd l,
    unmarshal_card_number (sub d 1 16) = Ok (t, n) /\ unmarshal_ia5 (sub d 141 2) = Ok l /\
    x = mkIdent t (Some (mkIC (match unmarshal_enum nation_numeric_table (nth 0 d 0) with
                               | Ok n => n | _ => ENUM_UNRECOGNIZED end) n (Some a) i b e))
          (Some (mkIH (Some s) (Some f) (Some bd) (Some l))).
Proof.
  intros E. unfold unmarshal_identification in E. apply bind_ok in E as (u & G & E).
  apply bind_ok in E as ([t n] & En & E). apply bind_ok in E as (a & _ & E). apply bind_ok in E as (i & _ & E).
  apply bind_ok in E as (b & _ & E). apply bind_ok in E as (e & _ & E). apply bind_ok in E as (s & _ & E).
  apply bind_ok in E as (f & _ & E). apply bind_ok in E as (bd & _ & E). apply bind_ok in E as (l & El & E).
  apply Ok_inj in E as <-. cbn [fst snd]. exists t, n, a, i, b, e, s, f, bd, l. auto.
Qed.

Lemma driver_number_digits n :
  length n = 16%nat -> digitb (nth 14 n 0) = true -> digitb (nth 15 n 0) = true ->
  exists x, unmarshal_card_number n = Ok (CARD_TYPE_DRIVER, CN_driver x).
Proof.
  intros L A B. unfold unmarshal_card_number, unmarshal_ia5. rewrite !sub_length by lia. cbn [Nat.eqb].
  rewrite A, B. cbn [andb]. eexists. reflexivity.
Qed.

(** The same for two accepted dumps of driver cards (a card number that ends in
    two digits): apart from the nation byte and the two language bytes, nothing of
    the dump shows. *)
Theorem C63_dumps cm d1 d2 x1 x2 :
  unmarshal_identification cm d1 = Ok x1 -> unmarshal_identification cm d2 = Ok x2 ->
  digitb (nth 15 d1 0) = true -> digitb (nth 16 d1 0) = true ->
  digitb (nth 15 d2 0) = true -> digitb (nth 16 d2 0) = true ->
  nth 0 d1 0 = nth 0 d2 0 -> sub d1 141 2 = sub d2 141 2 ->
  anonymize_identification (full_of x1) = anonymize_identification (full_of x2).
Proof.
  intros U1 U2 A1 B1 A2 B2 N S.
  assert (Len : forall d x, unmarshal_identification cm d = Ok x -> (143 <= length d)%nat).
  { intros d x U. unfold unmarshal_identification in U. apply bind_ok in U as (u & G & _). apply guard_ok in G.
    destruct (Nat.ltb_spec (length d) 143); [discriminate|auto]. }
  pose proof (Len _ _ U1) as L1. pose proof (Len _ _ U2) as L2.
  destruct (identification_parts _ _ _ U1) as (t1 & n1 & a1 & i1 & b1 & e1 & s1 & f1 & bd1 & l1 & En1 & El1 & ->).
  destruct (identification_parts _ _ _ U2) as (t2 & n2 & a2 & i2 & b2 & e2 & s2 & f2 & bd2 & l2 & En2 & El2 & ->).
  destruct (driver_number_digits (sub d1 1 16)) as (y1 & D1); [apply sub_length; lia|rewrite nth_sub by lia; exact A1|rewrite nth_sub by lia; exact B1|].
  destruct (driver_number_digits (sub d2 1 16)) as (y2 & D2); [apply sub_length; lia|rewrite nth_sub by lia; exact A2|rewrite nth_sub by lia; exact B2|].
  rewrite D1 in En1. rewrite D2 in En2. apply Ok_inj in En1. apply Ok_inj in En2.
  inversion En1; inversion En2; subst t1 n1 t2 n2. rewrite S in El1. rewrite El1 in El2. apply Ok_inj in El2. subst l2.
  rewrite N. reflexivity.
Qed.

(** Two real dumps of different holders, with one nation and language. *)
Definition sample_ident (number name : string) (year : Z) : bytes :=
  [18] ++ lit number ++ [1] ++ pad_spaces 35 (lit "TRAFICOM") ++ [94; 0; 0; 0; 94; 0; 0; 1; 104; 0; 0; 0] ++
  ([1] ++ pad_spaces 35 (lit name)) ++ ([1] ++ pad_spaces 35 (lit "KIM")) ++ [25; year; 3; 17] ++ lit "fi".

Example C63_applies :
  exists x y,
    unmarshal_identification (fun _ b => b) (sample_ident "1234567890123400" "KORHONEN" 101) = Ok x /\
    unmarshal_identification (fun _ b => b) (sample_ident "9876543210987621" "VIRTANEN" 132) = Ok y /\
    full_of x <> full_of y /\ same_but_personal (full_of x) (full_of y) /\
    anonymize_identification (full_of x) = anonymize_identification (full_of y).
Proof.
  eexists. eexists. split; [reflexivity|]. split; [reflexivity|]. split; [discriminate|].
  split; [vm_compute; auto 20|reflexivity].
Qed.

(** ** C64: places and vehicles *)

(** Records that differ only in time and position (and in raw bytes): same entry
    type and odometers in the same hundred; both have a time or neither has. *)
Definition place_alike (p q : place) : Prop :=
  pl_entry p = pl_entry q /\ pl_entry_unrecognized p = pl_entry_unrecognized q /\
  Z.quot (pl_odometer p) 100 = Z.quot (pl_odometer q) 100 /\
  (pl_time p = None <-> pl_time q = None).

Definition place_g2_alike (p q : place_g2) : Prop :=
  pl2_entry p = pl2_entry q /\ pl2_entry_unrecognized p = pl2_entry_unrecognized q /\
  Z.quot (pl2_odometer p) 100 = Z.quot (pl2_odometer q) 100 /\
  (pl2_time p = None <-> pl2_time q = None) /\
  both (fun g h => gp_accuracy g = gp_accuracy h /\ (gp_time g = None <-> gp_time h = None))
       (pl2_gnss p) (pl2_gnss q).

(** Vehicle records that differ only in times and registration number: odometers
    in the same thousand, same counter, same registering nation. *)
Definition vehicle_alike (r s : card_vehicle) : Prop :=
  Z.quot (cv_odo_begin r) 1000 = Z.quot (cv_odo_begin s) 1000 /\
  Z.quot (cv_odo_end r) 1000 = Z.quot (cv_odo_end s) 1000 /\
  cv_counter r = cv_counter s /\
  both (fun v w => vr_nation v = vr_nation w) (cv_reg r) (cv_reg s).

Lemma stamp_alike i a b : (a = None <-> b = None) -> stamp i a = stamp i b.
Proof. intros [H1 H2]. unfold stamp. destruct a, b; auto; [specialize (H2 eq_refl)|specialize (H1 eq_refl)]; discriminate. Qed.

(** The claim without "partial" would let the presence of a time, the accuracy of
    a position and the registering nation differ too; see [C64_revealed_refuted]. *)
Theorem C64_nothing_revealed_partial :
  (forall x y, ps_newest x = ps_newest y -> Forall2 place_alike (ps_records x) (ps_records y) ->
     anonymize_places x = anonymize_places y) /\
  (forall x y, ps2_newest x = ps2_newest y -> Forall2 place_g2_alike (ps2_records x) (ps2_records y) ->
     anonymize_places_g2 x = anonymize_places_g2 y) /\
  (forall x y, vs_newest x = vs_newest y -> Forall2 vehicle_alike (vs_records x) (vs_records y) ->
     anonymize_vehicles x = anonymize_vehicles y).
Proof.
  split; [|split].
  - intros x y N R. rewrite !anonymize_places_eq, N.
    rewrite (mapi_ext2 place_alike final_place (ps_records x) (ps_records y)); auto.
    intros j p q (E & U & O & T). unfold final_place. now rewrite E, U, O, (stamp_alike j _ _ T).
  - intros x y N R. rewrite !anonymize_places_g2_eq, N.
    rewrite (mapi_ext2 place_g2_alike final_place_g2 (ps2_records x) (ps2_records y)); auto.
    intros j p q (E & U & O & T & G). unfold final_place_g2. rewrite E, U, O, (stamp_alike j _ _ T).
    f_equal. f_equal. destruct (pl2_gnss p) as [g|], (pl2_gnss q) as [h|]; cbn [both] in G; try contradiction; [|reflexivity].
    destruct G as [A B]. cbn [option_map]. f_equal. unfold final_gnss. rewrite A. f_equal.
    destruct (gp_time g), (gp_time h); auto; destruct B as [B1 B2]; [specialize (B2 eq_refl)|specialize (B1 eq_refl)]; discriminate.
  - intros x y N R. rewrite !anonymize_vehicles_eq, N.
    rewrite (mapi_ext2 vehicle_alike anonymize_vehicle (vs_records x) (vs_records y)); auto.
    intros j r s (O1 & O2 & C & V). unfold anonymize_vehicle. rewrite O1, O2, C. cbv zeta.
    f_equal. f_equal. destruct (cv_reg r) as [v|], (cv_reg s) as [w|]; cbn [both] in V; try contradiction; [|reflexivity].
    cbn [option_map]. unfold anonymize_vreg. now rewrite V.
Qed.

(** Dumps of one record each, at different times and places. *)
Definition sample_place (t c : Z) : bytes := [t; 9; 8; 7; 1; c; 3; 0; 200; 10].
Definition sample_vehicle (t nation c : Z) : bytes :=
  [0; 16; 0; 0; 18; 0; t; 1; 1; 1; t; 1; 2; 1; nation; 1; c; 66; 67; 45; 49; 50; 51; 32; 32; 32; 32; 32; 32; 0; 7].

Example C64_applies :
  exists x y v w,
    unmarshal_places ([1] ++ sample_place 90 18 ++ sample_place 91 13) = Ok x /\
    unmarshal_places ([1] ++ sample_place 80 44 ++ sample_place 99 18) = Ok y /\
    x <> y /\ Forall2 place_alike (ps_records x) (ps_records y) /\
    unmarshal_vehicles (fun _ b => b) ([0; 0] ++ sample_vehicle 90 18 65) = Ok v /\
    unmarshal_vehicles (fun _ b => b) ([0; 0] ++ sample_vehicle 95 18 75) = Ok w /\
    v <> w /\ Forall2 vehicle_alike (vs_records v) (vs_records w).
Proof.
  do 4 eexists. do 2 (split; [reflexivity|]). split; [discriminate|]. split.
  { repeat (apply Forall2_cons; [repeat split; discriminate|]). apply Forall2_nil. }
  do 2 (split; [reflexivity|]). split; [discriminate|].
  apply Forall2_cons; [repeat split|apply Forall2_nil].
Qed.

(** Whether a later record has a time at all, and the nation of a registration,
    are still there after anonymising. *)
Theorem C64_revealed_refuted :
  (exists d1 d2 x y,
     bytes_ok d1 /\ bytes_ok d2 /\ length d1 = length d2 /\
     (forall i, ~ (11 <= i < 15)%nat -> nth i d1 0 = nth i d2 0) /\
     unmarshal_places d1 = Ok x /\ unmarshal_places d2 = Ok y /\
     anonymize_places x <> anonymize_places y) /\
  (exists cm d1 d2 x y,
     bytes_ok d1 /\ bytes_ok d2 /\ length d1 = length d2 /\
     (forall i, i <> 16%nat -> nth i d1 0 = nth i d2 0) /\
     unmarshal_vehicles cm d1 = Ok x /\ unmarshal_vehicles cm d2 = Ok y /\
     anonymize_vehicles x <> anonymize_vehicles y).
Proof.
  split.
  - exists ([1] ++ sample_place 90 18 ++ sample_place 91 18),
      ([1] ++ sample_place 90 18 ++ [0; 0; 0; 0; 1; 18; 3; 0; 200; 10]).
    do 2 eexists. do 2 (split; [apply bytes_okb_ok; reflexivity|]). split; [reflexivity|]. split.
    { intros i H. do 21 (destruct i as [|i]; [reflexivity || lia|]). destruct i; reflexivity. }
    do 2 (split; [reflexivity|]). intros E. apply (f_equal (fun p => map pl_time (ps_records p))) in E.
    vm_compute in E. discriminate E.
  - exists (fun _ b => b), ([0; 0] ++ sample_vehicle 90 18 65), ([0; 0] ++ sample_vehicle 90 13 65).
    do 2 eexists. do 2 (split; [apply bytes_okb_ok; reflexivity|]). split; [reflexivity|]. split.
    { intros i H. do 33 (destruct i as [|i]; [reflexivity || lia|]). destruct i; reflexivity. }
    do 2 (split; [reflexivity|]). intros E. apply (f_equal vs_raw) in E.
    vm_compute in E. discriminate E.
Qed.

(** ** C71: twice is once *)

Theorem C71_twice :
  (forall x, anonymize_places (anonymize_places x) = anonymize_places x) /\
  (forall x, anonymize_places_g2 (anonymize_places_g2 x) = anonymize_places_g2 x) /\
  (forall x, anonymize_vehicles (anonymize_vehicles x) = anonymize_vehicles x).
Proof.
  split; [|split]; intros x.
  - rewrite (anonymize_places_eq (anonymize_places x)). rewrite !anonymize_places_eq.
    cbn [ps_newest ps_records]. rewrite mapi_twice by apply final_place_twice. reflexivity.
  - rewrite (anonymize_places_g2_eq (anonymize_places_g2 x)). rewrite (anonymize_places_g2_eq x).
    unfold regenerate at 2 3. cbn [append_places_g2 ps2_newest ps2_raw ps2_records].
    destruct (append_pointer_file _ _ _ _ _) eqn:E; cbn [ps2_newest ps2_records];
      rewrite mapi_twice by apply final_place_g2_twice; reflexivity.
  - rewrite (anonymize_vehicles_eq (anonymize_vehicles x)). rewrite (anonymize_vehicles_eq x).
    unfold regenerate at 2 3. cbn [append_vehicles vs_newest vs_raw vs_records].
    destruct (append_pointer_file _ _ _ _ _) eqn:E; cbn [vs_newest vs_records];
      rewrite mapi_twice by apply anonymize_vehicle_twice; reflexivity.
Qed.

(** ** C70: an anonymised file is still a file *)

(** The anonymised identification of a driver card: nation byte, test data,
    language bytes. *)
Definition test_ident (nation : Z) (language : bytes) : bytes :=
  [nation] ++ lit "DRIVER0000000100" ++ ([1] ++ pad_spaces 35 (lit "TEST_AUTHORITY")) ++
  to_be 4 1577836800 ++ to_be 4 1577836800 ++ to_be 4 1735689599 ++
  ([1] ++ pad_spaces 35 (lit "TEST_SURNAME")) ++ ([1] ++ pad_spaces 35 (lit "TEST_FIRSTNAME")) ++
  [32; 0; 1; 1] ++ language.

Lemma ident_written cm d x :
  unmarshal_identification cm d = Ok x -> (143 <= length d)%nat ->
  digitb (nth 15 d 0) = true -> digitb (nth 16 d 0) = true ->
  nation_known (nth 0 d 0) ->
  append_identification (Some (written_of (anonymize_identification (full_of x)))) =
  Ok (test_ident (nth 0 d 0) (sub d 141 2)).
Proof.
  intros U L A B N.
  destruct (identification_parts _ _ _ U) as (t & n & a & i & b & e & s & f & bd & l & En & El & ->).
  destruct (driver_number_digits (sub d 1 16)) as (y & D);
    [apply sub_length; lia|rewrite nth_sub by lia; exact A|rewrite nth_sub by lia; exact B|].
  rewrite D in En. apply Ok_inj in En. inversion En; subst t n.
  apply nation_knownb_iff in N. unfold nation_knownb in N.
  destruct (unmarshal_enum nation_numeric_table (nth 0 d 0)) as [v| |] eqn:Ev; try discriminate N.
  destruct (unmarshal_enum_coded nation_numeric_table _ v eq_refl Ev) as [_ V].
  assert (Al : append_ia5 (Some l) = Ok (sub d 141 2)).
  { unfold unmarshal_ia5 in El. rewrite sub_length in El by lia. cbn [Nat.eqb] in El. apply Ok_inj in El as <-.
    cbn [append_ia5 ia5_length ia5_raw]. rewrite sub_length by lia. reflexivity. }
  unfold append_identification, written_of, anonymize_identification, full_of.
  cbn [fi_type fi_card fi_driver ident_type ident_card_part ident_holder_part option_map
       id_nation id_number id_authority id_issue id_begin id_expiry
       anonymize_card_part anonymize_driver_number fc_nation fc_driver fc_owner fc_authority fc_issue fc_begin fc_expiry].
  replace (CARD_TYPE_DRIVER =? CARD_TYPE_DRIVER) with true by reflexivity.
  unfold append_card_identification.
  cbn [id_nation id_number id_authority id_issue id_begin id_expiry].
  destruct (Z.eqb_spec v ENUM_UNRECOGNIZED); [contradiction|].
  rewrite (marshal_unmarshal_enum nation_numeric_table (nth 0 d 0) v) by (reflexivity || exact Ev). cbn [bind].
  unfold anonymize_driver_holder, append_holder_identification. cbn [ih_surname ih_first_names ih_birth ih_language].
  rewrite Al. reflexivity.
Qed.

Lemma test_ident_back cm b l1 l2 :
  exists y, unmarshal_identification cm (test_ident b [l1; l2]) = Ok y.
Proof. eexists. reflexivity. Qed.

Lemma test_ident_shape b l : length l = 2%nat ->
  length (test_ident b l) = 143%nat /\ nth 0 (test_ident b l) 0 = b /\
  sub (test_ident b l) 141 2 = l /\
  nth 15 (test_ident b l) 0 = 48 /\ nth 16 (test_ident b l) 0 = 48.
Proof.
  intros H. destruct l as [|l1 [|l2 [|]]]; try discriminate H. repeat split.
Qed.

Theorem C70_still_files_partial :
  (forall d x, bytes_ok d -> Z.of_nat (length d) <= 65535 -> unmarshal_places d = Ok x ->
     exists b, append_places (Some (anonymize_places x)) = Ok b /\
       length b = (1 + (length d - 1) / 10 * 10)%nat /\ unmarshal_places b = Ok (anonymize_places x)) /\
  (forall d x, bytes_ok d -> Z.of_nat (length d) <= 65535 -> unmarshal_places_g2 d = Ok x ->
     exists b, append_places_g2 (Some (anonymize_places_g2 x)) = Ok b /\
       length b = (2 + (length d - 2) / 21 * 21)%nat /\ unmarshal_places_g2 b = Ok (anonymize_places_g2 x)) /\
  (forall cm d x, bytes_ok d -> Z.of_nat (length d) <= 65535 -> unmarshal_vehicles cm d = Ok x ->
     Forall (fun c => nation_known (nth 14 c 0)) (chunks 31 (skipn 2 d)) ->
     exists b y, append_vehicles (Some (anonymize_vehicles x)) = Ok b /\
       length b = (2 + (length d - 2) / 31 * 31)%nat /\
       unmarshal_vehicles cm b = Ok y /\ anonymize_vehicles y = anonymize_vehicles x) /\
  (forall cm d x, bytes_ok d -> unmarshal_identification cm d = Ok x ->
     digitb (nth 15 d 0) = true -> digitb (nth 16 d 0) = true -> nation_known (nth 0 d 0) ->
     exists b y, append_identification (Some (written_of (anonymize_identification (full_of x)))) = Ok b /\
       length b = 143%nat /\ unmarshal_identification cm b = Ok y /\
       anonymize_identification (full_of y) = anonymize_identification (full_of x)).
Proof.
  split; [|split; [|split]].
  - intros d x H L U. exists (ps_raw (anonymize_places x)). split; [apply places_write|].
    split; [|apply (places_back d); auto; lia].
    destruct (places_parsed d x H U) as (_ & C & _). rewrite anonymize_places_eq. cbn [ps_raw length].
    rewrite (concat_length_map pl_raw 10).
    + rewrite mapi_length, C. reflexivity.
    + apply (mapi_Forall (fun _ => True) _ _ _ 0 (Z.of_nat (length (ps_records x)))); try lia.
      * apply Forall_forall. auto.
      * intros j a _ _. apply final_place_raw_len.
  - intros d x H L U. exists (ps2_raw (anonymize_places_g2 x)).
    apply (places_g2_back d); auto; lia.
  - intros cm d x H L U K. destruct (vehicles_back cm d x) as (A & B & y & C & E); auto; try lia.
    { unfold unmarshal_vehicles in U. apply bind_ok in U as (u & _ & U). apply bind_ok in U as (rs & Er & U).
      apply Ok_inj in U as <-. cbn [vs_records]. apply map_res_ok in Er. clear - Er K.
      revert K. induction Er as [|c r cs rs Ec Er IH]; intros K; [constructor|].
      apply Forall_cons_iff in K as [K1 K2]. constructor; [|auto]. intros v Ev.
      unfold unmarshal_card_vehicle in Ec. apply bind_ok in Ec as (u & G & Ec). apply guard_ok in G.
      apply Nat.eqb_eq in G.
      apply bind_ok in Ec as (f & _ & Ec). apply bind_ok in Ec as (l & _ & Ec).
      apply bind_ok in Ec as (v' & Uv & Ec). apply bind_ok in Ec as (k & _ & Ec). apply Ok_inj in Ec as <-.
      cbn [cv_reg] in Ev. inversion Ev; subst v'. unfold unmarshal_vreg in Uv.
      apply bind_ok in Uv as (u1 & _ & Uv). apply bind_ok in Uv as (s & _ & Uv). apply Ok_inj in Uv as <-.
      cbn [vr_nation]. rewrite nth_sub by lia. cbn [Nat.add].
      apply nation_knownb_iff in K1. unfold nation_knownb in K1.
      destruct (unmarshal_enum nation_numeric_table (nth 14 c 0)) as [n| |] eqn:En; try discriminate K1.
      now destruct (unmarshal_enum_coded nation_numeric_table _ n eq_refl En). }
    exists (vs_raw (anonymize_vehicles x)), y. auto.
  - intros cm d x H U A B N.
    assert (L : (143 <= length d)%nat).
    { unfold unmarshal_identification in U. apply bind_ok in U as (u & G & _). apply guard_ok in G.
      destruct (Nat.ltb_spec (length d) 143); [discriminate|auto]. }
    pose proof (ident_written cm d x U L A B N) as W.
    assert (Ll : length (sub d 141 2) = 2%nat) by (apply sub_length; lia).
    destruct (test_ident_shape (nth 0 d 0) (sub d 141 2) Ll) as (S1 & S2 & S3 & S4 & S5).
    assert (Y : exists y, unmarshal_identification cm (test_ident (nth 0 d 0) (sub d 141 2)) = Ok y).
    { clear - Ll. destruct (sub d 141 2) as [|l1 [|l2 [|]]]; try discriminate Ll. apply test_ident_back. }
    destruct Y as (y & Uy). exists (test_ident (nth 0 d 0) (sub d 141 2)), y.
    split; [exact W|]. split; [exact S1|]. split; [exact Uy|].
    apply (C63_dumps cm (test_ident (nth 0 d 0) (sub d 141 2)) d); auto; rewrite ?S4, ?S5; reflexivity.
Qed.

(** Without the two hypotheses: a registration of an unknown nation cannot be
    written any more, and an identification whose card number does not end in two
    digits is taken for a workshop card, loses its holder, and is written as 65
    bytes that the parser rejects. *)
Theorem C70_still_files_refuted :
  (exists cm d x, bytes_ok d /\ unmarshal_vehicles cm d = Ok x /\
     append_vehicles (Some (anonymize_vehicles x)) = Err EOther) /\
  (exists cm d x b, bytes_ok d /\ length d = 143%nat /\ unmarshal_identification cm d = Ok x /\
     is_ok (append_identification (Some x)) = true /\
     append_identification (Some (written_of (anonymize_identification (full_of x)))) = Ok b /\
     length b = 65%nat /\ unmarshal_identification cm b = Err EOther).
Proof.
  split.
  - exists (fun _ b => b), ([0; 0] ++ sample_vehicle 90 99 65). eexists.
    split; [apply bytes_okb_ok; reflexivity|]. split; reflexivity.
  - exists (fun _ b => b), (sample_ident "12345678901234AA" "KORHONEN" 101). do 2 eexists.
    split; [apply bytes_okb_ok; reflexivity|]. split; [reflexivity|]. split; [reflexivity|].
    split; [vm_compute; reflexivity|]. split; [vm_compute; reflexivity|]. split; vm_compute; reflexivity.
Qed.

Example C70_applies :
  exists x, unmarshal_places ([1] ++ sample_place 90 18 ++ sample_place 91 200) = Ok x /\
    ps_raw (anonymize_places x) =
    [1; 94; 11; 225; 0; 1; 18; 1; 0; 200; 0; 94; 11; 239; 16; 1; 18; 1; 0; 200; 0].
Proof. eexists. split; reflexivity. Qed.

(** ** C72: anonymised activity changes *)

(** [l] numbered from zero, as a caller of AnonymizeActivityChangeInfo does. *)
Definition anonymized_day (l : list activity_change) : list activity_change :=
  mapi (fun i a => anonymize_activity_change a i) l.

Lemma nth_mapi {A} (f : Z -> A -> A) l : forall i n d,
  (n < length l)%nat -> nth n (mapi_from f i l) d = f (i + Z.of_nat n) (nth n l d).
Proof.
  induction l as [|a l IH]; intros i n d H; cbn [length] in H; [lia|].
  destruct n as [|n]; cbn [mapi_from nth]; [f_equal; lia|].
  rewrite IH by lia. f_equal. lia.
Qed.

(** Two days with the same changes at other times (and other raw bytes) become the
    same; up to 48 changes the new times increase.  Missing: longer days, see
    [C72_order_refuted]. *)
Theorem C72_order_partial :
  (forall l m,
     Forall2 (fun a b => ac_slot a = ac_slot b /\ ac_crew a = ac_crew b /\
                         ac_inserted a = ac_inserted b /\ ac_activity a = ac_activity b) l m ->
     anonymized_day l = anonymized_day m) /\
  (forall l d i j, (i < j < length l)%nat -> (length l <= 48)%nat ->
     0 <= ac_minutes (nth i (anonymized_day l) d) < ac_minutes (nth j (anonymized_day l) d) /\
     ac_minutes (nth j (anonymized_day l) d) < 1440).
Proof.
  split.
  - intros l m. unfold anonymized_day, mapi. generalize 0. intros i H. revert i.
    induction H as [|a b l m (S1 & C & I & A) H IH]; intros i; [reflexivity|].
    cbn [mapi_from]. rewrite IH. unfold anonymize_activity_change. now rewrite S1, C, I, A.
  - intros l d i j H L. unfold anonymized_day, mapi. rewrite !nth_mapi by lia.
    cbn [anonymize_activity_change ac_minutes].
    assert (R : forall k, 0 <= k < 48 -> Z.rem (k * 30) 1440 = k * 30) by (intros k K; apply Z.rem_small; lia).
    rewrite !R by lia. lia.
Qed.

(** A day with 49 changes: the last one is moved to the time of the first. *)
Theorem C72_order_refuted :
  exists l i j d,
    (i < j < length l)%nat /\ Forall (fun a => unmarshal_activity_change (odflt [] (ac_raw a)) = Ok a) l /\
    (forall m n, (m < n < length l)%nat -> ac_minutes (nth m l d) < ac_minutes (nth n l d)) /\
    ac_minutes (nth j (anonymized_day l) d) <= ac_minutes (nth i (anonymized_day l) d).
Proof.
  set (ch := fun k : Z => mkAC (Some (to_be 2 (k * 10))) 2 false true 2 (k * 10)).
  exists (map ch (map Z.of_nat (seq 0 49))), 0%nat, 48%nat, (ch 0).
  split; [cbn; lia|]. split.
  - rewrite Forall_map. apply Forall_forall. intros k K. apply in_map_iff in K as (n & <- & In).
    apply in_seq in In. cbn [Nat.add] in In.
    do 49 (destruct n as [|n]; [reflexivity|]). lia.
  - split; [|cbn; lia]. intros m n H. rewrite !map_length, seq_length in H.
    rewrite !(map_nth ch). change (ch 0) with (ch 0). rewrite !(map_nth Z.of_nat _ 0%nat). rewrite !seq_nth by lia.
    unfold ch. cbn [ac_minutes]. lia.
Qed.
