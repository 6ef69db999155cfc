(** C37, C38 and C41 for files of every size: what the records of events, faults
    and vehicle-units files show after the scanner has used its buffer again. *)

From Verif Require Import Base Enums DDScalar Utf8 DDString DDRecord Chunks Scanner CardBasic CardRecords
  P_Scalar Props_Scalar P_Utf8 P_String Props_String P_Scanner P_ScanFinal Field P_Basic Props_Basic P_Record P_Records
  Props_Records.

(** Among the whole records of [n] bytes in [d], [j] is the last one whose number
    leaves the same remainder as [i] modulo [places]. *)
Definition last_at_place (n places : nat) (d : bytes) (i j : nat) : Prop :=
  (i < length d / n)%nat /\ (j < length d / n)%nat /\ (j mod places = i mod places)%nat /\
  (length d / n <= j + places)%nat.

Lemma places_24 : (start_buf_size / 24 = 170)%nat.
Proof. symmetry. apply (Nat.div_unique _ 24 170 16); pose proof start_eq; lia. Qed.

Lemma places_10 : (start_buf_size / 10 = 409)%nat.
Proof. symmetry. apply (Nat.div_unique _ 10 409 6); pose proof start_eq; lia. Qed.

Lemma half_24 c : (start_buf_size / 2 <? c * 24)%nat = (85 <? c)%nat.
Proof.
  assert (H : Z.of_nat (start_buf_size / 2) = 2048).
  { pose proof start_eq. rewrite Nat2Z.inj_div. lia. }
  destruct (Nat.ltb_spec (start_buf_size / 2) (c * 24)), (Nat.ltb_spec 85 c); auto; lia.
Qed.

Lemma fits_24 : (2 * 24 <= start_buf_size)%nat.
Proof. pose proof start_eq. lia. Qed.
Lemma fits_10 : (2 * 10 <= start_buf_size)%nat.
Proof. pose proof start_eq. lia. Qed.

Lemma last_at_place_24 d i : (i < length d / 24)%nat -> exists j, last_at_place 24 170 d i j.
Proof.
  intros I. destruct (last_in_place 24 d i ltac:(lia) fits_24 I) as (j & A & B & C). rewrite places_24 in B, C.
  exists j. unfold last_at_place. auto.
Qed.

Lemma last_at_place_10 d i : (i < length d / 10)%nat -> exists j, last_at_place 10 409 d i j.
Proof.
  intros I. destruct (last_in_place 10 d i ltac:(lia) fits_10 I) as (j & A & B & C). rewrite places_10 in B, C.
  exists j. unfold last_at_place. auto.
Qed.

Lemma app_cut {A} (a b c d : list A) : length a = length c -> a ++ b = c ++ d -> a = c /\ b = d.
Proof.
  revert c. induction a as [|x a IH]; intros [|y c] L E; try discriminate; auto.
  cbn in E. injection E as -> E. destruct (IH c) as [-> ->]; auto.
Qed.

(** ** One record, decoded from [now] and later showing [fin] *)

Lemma event_rewritten cm now fin r : bytes_ok now -> length now = 24%nat -> length fin = 24%nat ->
  unmarshal_event cm (now, fin) = Ok r ->
  (append_event r = Ok now <->
     if be (sub now 1 4) =? 0 then fin = now
     else a_code nation_numeric_table (nth 9 now 0) /\ legal_code_page (nth 10 now 0) /\ sub fin 11 13 = sub now 11 13) /\
  forall w, append_event r = Ok w -> length w = 24%nat.
Proof.
  intros H L LF. pose proof (event_implements cm now H L) as IM. pose proof (event_exact now 0 H ltac:(lia)) as EX.
  assert (SN : sub now 0 24 = now) by (rewrite <- L; unfold sub; cbn [skipn]; apply firstn_all).
  rewrite SN in EX. cbn [Nat.add] in EX.
  unfold unmarshal_event in *. cbn [fst snd] in *. destruct (Z.eqb_spec (be (sub now 1 4)) 0) as [Z0|Z0].
  { intros E. apply Ok_inj in E. subst r. unfold append_event. cbn [ev_valid ev_raw negb]. split.
    - split; [apply Ok_inj|now intros ->].
    - intros w E. apply Ok_inj in E. now subst w. }
  intros E. apply bind_ok in E as (u1 & G1 & E). apply bind_ok in E as (t & Et & E).
  apply bind_ok in E as (b & Eb & E). apply bind_ok in E as (e & Ee & E). apply bind_ok in E as (v & Ev & E).
  apply Ok_inj in E. rewrite G1 in IM. cbn [bind] in IM. rewrite Et in IM. cbn [bind] in IM. rewrite Eb in IM. cbn [bind] in IM.
  rewrite Ee in IM. cbn [bind] in IM. rewrite Ev in IM. cbn [bind] in IM. destruct IM as [IA IW].
  destruct (EX IA) as [EX1 _]. rewrite <- IW in EX1. clear EX IA IW.
  unfold unmarshal_vreg in Ev. apply bind_ok in Ev as (u2 & _ & Ev). apply bind_ok in Ev as (num & En & Ev).
  apply Ok_inj in Ev. subst v. unfold unmarshal_string_value in En.
  assert (L14 : length (sub (sub now 9 15) 1 14) = 14%nat) by (rewrite sub_length; rewrite ?sub_length; lia).
  rewrite L14 in En. change (14 <? 2)%nat with false in En. cbv iota in En. apply Ok_inj in En. rewrite skipn_length, L14 in En.
  change (Z.of_nat (14 - 1)) with 13 in En. subst num.
  set (enc := encoding_of_code_page (nth 0 (sub (sub now 9 15) 1 14) 0)) in *.
  set (val := decode_with_code_page cm _ _) in *. clearbody enc val.
  set (nat_ := match unmarshal_enum nation_numeric_table (nth 0 (sub now 9 15) 0) with Ok n => n | _ => ENUM_UNRECOGNIZED end) in *.
  clearbody nat_. subst r. unfold alias_vreg in *. cbn [vr_nation vr_number option_map sv_encoding sv_length sv_value] in *.
  (* what is written, in terms of the raw bytes *)
  assert (W : forall raw, length raw = 14%nat ->
    append_event (mkEv true [] t b e (Some (mkVR nat_ (Some (mkSV (Some raw) enc (Some 13) val))))) =
    let* b' := append_time b in
    let* e' := append_time e in
    let* n := (if nat_ =? ENUM_UNRECOGNIZED then fail else marshal_enum nation_numeric_table nat_) in
    Ok ([marshal_enum_or_zero event_fault_type_table t] ++ b' ++ e' ++ [n; code_page_of_encoding enc] ++ sub raw 1 13)).
  { intros raw Lr. unfold append_event. cbn [ev_valid ev_begin ev_end ev_vehicle ev_type negb].
    destruct (append_time b); cbn [bind]; auto. destruct (append_time e); cbn [bind]; auto.
    unfold append_vreg. cbn [vr_nation vr_number].
    destruct (if nat_ =? ENUM_UNRECOGNIZED then fail else marshal_enum nation_numeric_table nat_); cbn [bind]; auto.
    unfold append_string_value. cbn [sv_raw sv_length sv_encoding odflt]. rewrite Lr.
    change (negb (14 <? 1)%nat) with true. change (Z.of_nat 14 =? 1 + 13) with true. cbn [guard bind].
    change (0 <? 14)%nat with true. cbv iota. cbn [bind]. do 4 f_equal.
    unfold set_byte, copy_into, sub. cbn [firstn Nat.sub length Nat.min Nat.add List.app].
    do 14 (destruct raw as [|? raw]; [discriminate|]). destruct raw; [|discriminate]. reflexivity. }
  rewrite W in EX1 |- * by (apply sub_length; lia).
  destruct (append_time b) as [b'| |] eqn:Tb; cbn [bind] in EX1 |- *; [|split; [split; [discriminate|tauto]|discriminate]..].
  destruct (append_time e) as [e'| |] eqn:Te; cbn [bind] in EX1 |- *; [|split; [split; [discriminate|tauto]|discriminate]..].
  destruct (if nat_ =? ENUM_UNRECOGNIZED then fail else marshal_enum nation_numeric_table nat_) as [n| |]; cbn [bind] in EX1 |- *;
    [|split; [split; [discriminate|tauto]|discriminate]..].
  apply append_time_length in Tb as [Lb _]. apply append_time_length in Te as [Le _].
  rewrite !sub_sub in * by lia. cbn [Nat.add] in *.
  set (ty := marshal_enum_or_zero event_fault_type_table t) in *. set (cp := code_page_of_encoding enc) in *.
  assert (SP : forall x : bytes, [ty] ++ b' ++ e' ++ [n; cp] ++ x = ([ty] ++ b' ++ e' ++ [n; cp]) ++ x).
  { intros x. now rewrite <- !app_assoc. }
  rewrite SP in EX1 |- *. set (hd := [ty] ++ b' ++ e' ++ [n; cp]) in *.
  assert (LH : length hd = 11%nat) by (unfold hd; rewrite !app_length, Lb, Le; reflexivity).
  clearbody hd ty cp. split.
  - assert (NS : now = sub now 0 11 ++ sub now 11 13).
    { rewrite <- SN at 1. unfold sub. cbn [skipn]. rewrite <- (firstn_skipn 11 (firstn 24 now)) at 1.
      rewrite firstn_firstn, skipn_firstn_comm. reflexivity. }
    assert (SPLIT : forall x : bytes, length x = 13%nat -> (Ok (hd ++ x) = Ok now <-> hd = sub now 0 11 /\ x = sub now 11 13)).
    { intros x Lx. split.
      - intros E. apply Ok_inj in E. rewrite NS in E. apply app_cut in E; auto. rewrite LH. symmetry. apply sub_length. lia.
      - intros [-> ->]. now rewrite <- NS. }
    rewrite SPLIT in EX1 |- * by (apply sub_length; lia). tauto.
  - intros w E. apply Ok_inj in E. subst w. rewrite app_length, LH, sub_length by lia. reflexivity.
Qed.

(** ** The records of a list, written one after another *)

Lemma concat_whole {A} (f : A -> res bytes) n : (0 < n)%nat -> forall rs d,
  length rs = (length d / n)%nat -> (forall r w, In r rs -> f r = Ok w -> length w = n) ->
  (concat_res f rs = Ok d <->
   (length d mod n = 0)%nat /\ forall i r, nth_error rs i = Some r -> f r = Ok (sub d (i * n) n)).
Proof.
  intros N. induction rs as [|r rs IH]; intros d L SZ.
  - cbn [concat_res length] in *. symmetry in L. apply Nat.div_small_iff in L; [|lia].
    rewrite Nat.mod_small by auto. split.
    + intros E. apply Ok_inj in E. subst d. split; auto. intros [|i] r E; discriminate.
    + intros [E _]. destruct d; [reflexivity|discriminate].
  - cbn [length] in L.
    assert (LD : (n <= length d)%nat).
    { destruct (Nat.le_gt_cases n (length d)); auto. rewrite Nat.div_small in L by auto. discriminate. }
    assert (L' : length rs = (length (skipn n d) / n)%nat).
    { rewrite skipn_length. rewrite (div_sub_mul (length d) 1 n) in L by lia. rewrite Nat.mul_1_l in L. lia. }
    assert (M : (length (skipn n d) mod n = length d mod n)%nat).
    { rewrite skipn_length. replace (length d) with (length d - n + 1 * n)%nat at 2 by lia.
      symmetry. apply Nat.mod_add. lia. }
    specialize (IH (skipn n d) L' ltac:(intros r0 w I; apply SZ; now right)). rewrite M in IH.
    assert (F0 : sub d (0 * n) n = firstn n d) by reflexivity.
    assert (FS : forall i, sub d (S i * n) n = sub (skipn n d) (i * n) n).
    { intros i. rewrite sub_skipn. f_equal. }
    cbn [concat_res]. split.
    + intros E. apply bind_ok in E as (b & Eb & E). apply bind_ok in E as (bs & Ebs & E). apply Ok_inj in E.
      pose proof (SZ r b ltac:(now left) Eb) as Lb.
      assert (B1 : firstn n d = b). { rewrite <- E, <- Lb. rewrite firstn_app, Nat.sub_diag, firstn_O, app_nil_r. apply firstn_all. }
      assert (B2 : skipn n d = bs). { rewrite <- E, <- Lb. rewrite skipn_app, Nat.sub_diag, skipn_all. reflexivity. }
      rewrite <- B2 in Ebs. destruct (proj1 IH Ebs) as [Q1 Q2]. split; auto.
      intros [|i] r0 Ei; cbn [nth_error] in Ei.
      * injection Ei as <-. now rewrite F0, B1.
      * rewrite FS. now apply Q2.
    + intros [Q1 Q2]. rewrite (Q2 0%nat r eq_refl), F0. cbn [bind].
      assert (E : concat_res f rs = Ok (skipn n d)).
      { apply IH. split; auto. intros i r0 Ei. rewrite <- FS. now apply Q2. }
      rewrite E. cbn [bind]. now rewrite firstn_skipn.
Qed.

(** The scanner's records, one by one. *)
Lemma scanned_nth {X} (un : bytes * bytes -> res X) n d l rs :
  (0 < n)%nat -> (2 * n <= start_buf_size)%nat ->
  scan_fixed n d = Ok l -> map_res un l = Ok rs ->
  length rs = (length d / n)%nat /\
  forall i r, nth_error rs i = Some r ->
    (i < length d / n)%nat /\ un (sub d (i * n) n, shown_in_the_end n d i) = Ok r.
Proof.
  intros N NS S M. rewrite scan_fixed_final in S by auto. apply Ok_inj in S. subst l.
  assert (L : length rs = (length d / n)%nat).
  { rewrite (Props_Records.map_res_length _ _ _ M). now rewrite map_length, seq_length. }
  split; auto. intros i r E.
  assert (I : (i < length d / n)%nat) by (rewrite <- L; apply nth_error_Some; congruence).
  split; auto. apply map_res_ok in M.
  assert (X0 : nth_error (map (fun i => (sub d (i * n) n, shown_in_the_end n d i)) (seq 0 (length d / n))) i =
               Some (sub d (i * n) n, shown_in_the_end n d i)).
  { rewrite nth_error_map. rewrite (nth_error_nth' _ 0%nat) by (rewrite seq_length; auto).
    rewrite seq_nth by auto. reflexivity. }
  revert E X0. generalize (map (fun i => (sub d (i * n) n, shown_in_the_end n d i)) (seq 0 (length d / n))) as l, M.
  clear. intros l M. generalize (sub d (i * n) n, shown_in_the_end n d i). clear n d.
  revert i. induction M as [|a b l bs Ea M IH]; intros [|i] c E X0; try discriminate.
  - cbn in *. congruence.
  - apply (IH i c E X0).
Qed.

(** * C37: when events and faults files of any size come back *)

Theorem C37_events_exact :
  forall cm d, bytes_ok d -> forall rs, unmarshal_events cm d = Ok rs ->
  let rec i := (i * 24)%nat in
  append_events (Some rs) = Ok d <->
  (length d mod 24)%nat = 0%nat /\
  forall i j, last_at_place 24 170 d i j ->
    if be (sub d (rec i + 1) 4) =? 0
    then sub d (rec j) 24 = sub d (rec i) 24
    else a_code nation_numeric_table (nth (rec i + 9) d 0) /\ legal_code_page (nth (rec i + 10) d 0) /\
         sub d (rec j + 11) 13 = sub d (rec i + 11) 13.
Proof.
  intros cm d H rs U rec. unfold unmarshal_events in U. apply bind_ok in U as (l & S & M).
  destruct (scanned_nth _ 24 d l rs ltac:(lia) fits_24 S M) as [L Q].
  assert (IN : forall i, (i < length d / 24)%nat -> (i * 24 + 24 <= length d)%nat).
  { intros i I. pose proof (Nat.mul_div_le (length d) 24 ltac:(lia)). lia. }
  assert (R : forall i r, nth_error rs i = Some r ->
    (append_event r = Ok (sub d (rec i) 24) <->
       if be (sub d (rec i + 1) 4) =? 0 then shown_in_the_end 24 d i = sub d (rec i) 24
       else a_code nation_numeric_table (nth (rec i + 9) d 0) /\ legal_code_page (nth (rec i + 10) d 0) /\
            sub (shown_in_the_end 24 d i) 11 13 = sub d (rec i + 11) 13) /\
    forall w, append_event r = Ok w -> length w = 24%nat).
  { intros i r E. destruct (Q i r E) as [I V]. specialize (IN i I).
    pose proof (event_rewritten cm (sub d (rec i) 24) (shown_in_the_end 24 d i) r
      ltac:(apply bytes_ok_sub; auto) ltac:(apply sub_length; auto) ltac:(apply shown_length) V) as X.
    rewrite !sub_sub in X by lia. rewrite !nth_sub in X by lia. exact X. }
  cbn [append_events odflt]. unfold append_events. cbn [odflt]. rewrite (concat_whole append_event 24 ltac:(lia) rs d L).
  2:{ intros r w I. apply In_nth_error in I as [i E]. apply (R i r E). }
  split; intros [W A]; split; auto.
  - intros i j P. destruct P as (I & J & SP & LP).
    assert (SH : shown_in_the_end 24 d i = sub d (rec j) 24).
    { apply (shown_whole 24 d i j); auto; try lia; rewrite ?places_24; auto using fits_24. }
    destruct (nth_error rs i) as [r|] eqn:E; [|exfalso; apply nth_error_None in E; lia].
    destruct (R i r E) as [R1 _]. specialize (A i r E). apply R1 in A. rewrite SH in A. rewrite sub_sub in A by lia. exact A.
  - intros i r E. destruct (R i r E) as [R1 _]. destruct (Q i r E) as [I _]. apply R1.
    destruct (last_at_place_24 d i I) as [j P]. specialize (A i j P). destruct P as (_ & J & SP & LP).
    assert (SH : shown_in_the_end 24 d i = sub d (rec j) 24).
    { apply (shown_whole 24 d i j); auto; try lia; rewrite ?places_24; auto using fits_24. }
    rewrite SH. rewrite sub_sub by lia. exact A.
Qed.

(** 171 records are more than the buffer holds.  They come back if the last one
    agrees with the first; only the registrations matter if that is a used one. *)
Definition used_later : bytes :=
  [2; 0x5F; 0x0B; 0xE1; 0; 0; 0; 0; 0; 0x0D; 1; 65; 66; 67; 45; 49; 50; 51; 32; 32; 32; 32; 32; 32].

Example C37_beyond_the_buffer :
  let d := concat (repeat used_event 170) ++ used_later in
  length d = (171 * 24)%nat /\
  exists rs, unmarshal_events (fun _ b => b) d = Ok rs /\ append_events (Some rs) = Ok d.
Proof.
  split; [vm_compute; reflexivity|]. eexists. split; [vm_compute; reflexivity|vm_compute; reflexivity].
Qed.

(** * C38: which bytes the records show *)

(** The bytes an event or fault shows in the end: those of the last record at its
    place.  An incomplete record at the end of the file covers the first bytes of the
    place it came to, and, if that was beyond the 85th, those of the first place. *)
Definition shown_byte (d : bytes) (i j p : nat) : Z :=
  let count := (length d / 24)%nat in
  let next := (count mod 170)%nat in
  if (p <? length d mod 24)%nat && ((i mod 170 =? next)%nat || ((i mod 170 =? 0)%nat && (85 <? next)%nat))
  then nth (count * 24 + p) d 0
  else nth (j * 24 + p) d 0.

Lemma shown_bytes d i j : last_at_place 24 170 d i j ->
  shown_in_the_end 24 d i = map (shown_byte d i j) (seq 0 24).
Proof.
  intros (I & J & SP & LP). apply (nth_ext _ _ 0 0). { now rewrite shown_length, map_length, seq_length. }
  intros p P. rewrite shown_length in P.
  rewrite (nth_indep (map _ _) 0 (shown_byte d i j 0)) by (rewrite map_length, seq_length; auto).
  rewrite map_nth, seq_nth by auto. cbn [Nat.add].
  rewrite (shown_nth 24 d i j p); rewrite ?places_24; auto using fits_24; try lia.
  rewrite half_24. reflexivity.
Qed.

Theorem C38_events_exact :
  forall cm d, bytes_ok d -> forall rs, unmarshal_events cm d = Ok rs ->
  (forall i, (i * 24 + 24 <= length d)%nat -> exists j, last_at_place 24 170 d i j) /\
  forall i j, last_at_place 24 170 d i j ->
  exists r, nth_error rs i = Some r /\ event_at d (i * 24) r /\
    if be (sub d (i * 24 + 1) 4) =? 0
    then ev_raw r = map (shown_byte d i j) (seq 0 24)
    else exists v s, ev_vehicle r = Some v /\ vr_number v = Some s /\
         sv_raw s = Some (map (shown_byte d i j) (seq 10 14)).
Proof.
  intros cm d H rs U. split.
  { intros i I. apply last_at_place_24. apply Nat.div_le_lower_bound; lia. }
  intros i j P. unfold unmarshal_events in U. apply bind_ok in U as (l & S & M).
  destruct (scanned_nth _ 24 d l rs ltac:(lia) fits_24 S M) as [L Q].
  pose proof (shown_bytes d i j P) as SH. destruct P as (I & J & SP & LP).
  destruct (nth_error rs i) as [r|] eqn:E; [|exfalso; apply nth_error_None in E; lia].
  destruct (Q i r E) as [_ V]. exists r. split; auto.
  assert (IN : (i * 24 + 24 <= length d)%nat).
  { pose proof (Nat.mul_div_le (length d) 24 ltac:(lia)). lia. }
  split; [eapply event_at_ok; eauto|].
  rewrite SH in V. set (f := shown_byte d i j) in *. clearbody f.
  unfold unmarshal_event in V. cbn [fst snd] in V. rewrite !sub_sub in V by lia.
  destruct (be (sub d (i * 24 + 1) 4) =? 0).
  - apply Ok_inj in V. subst r. reflexivity.
  - apply bind_ok in V as (u & _ & V). apply bind_ok in V as (t & Et & V). apply bind_ok in V as (b & _ & V).
    apply bind_ok in V as (e & _ & V). apply bind_ok in V as (v & Ev & V).
    apply Ok_inj in V. subst r. destruct (vreg_number_raw _ _ _ Ev) as [s Es].
    eexists _, _. split; [reflexivity|]. unfold alias_vreg. rewrite Es. cbn [vr_number option_map].
    split; reflexivity.
Qed.

(** A single byte after 86 records replaces the first byte of the first one; 85
    records are too few for that. *)
Example C38_moved_to_the_front :
  let d := events_many 86 [0x77] in let d' := events_many 84 [0x77] in
  last_at_place 24 170 d 0 0 /\ map (shown_byte d 0 0) (seq 0 24) = 0x77 :: repeat 0 23 /\
  last_at_place 24 170 d' 0 0 /\ map (shown_byte d' 0 0) (seq 0 24) = repeat 0 24.
Proof.
  split; [|split; [|split]]; try (vm_compute; reflexivity).
  - unfold last_at_place. vm_compute. repeat split; lia.
  - unfold last_at_place. vm_compute. repeat split; lia.
Qed.

(** * C41: vehicle-units files of any size *)

Lemma unit_rewritten now fin r : bytes_ok now -> length now = 10%nat -> length fin = 10%nat ->
  unmarshal_unit_record (now, fin) = Ok r -> append_unit_record r = Ok (sub now 0 5 ++ sub fin 5 5).
Proof.
  intros H L LF V. pose proof (unit_record_implements now H L) as IM. unfold unmarshal_unit_record in *. cbn [fst snd] in *.
  apply bind_ok in V as (u & G & V). rewrite G in IM. cbn [bind] in IM.
  apply bind_ok in V as (t & Et & V). rewrite Et in IM. cbn [bind] in IM. apply Ok_inj in V. subst r.
  destruct IM as [_ IW]. cbn [f_id f_w] in IW.
  assert (W : forall x : bytes, length x = 10%nat ->
    append_unit_record (mkUR t (nth 4 now 0) (sub x 5 1) (sub x 6 4)) =
    let* t' := append_time t in
    let* _ := guard (negb ((nth 4 now 0 <? 0) || (nth 4 now 0 >? 255))) in
    Ok (t' ++ [u8 (nth 4 now 0)] ++ sub x 5 5)).
  { intros x Lx. unfold append_unit_record. cbn [ur_time ur_manufacturer ur_device ur_version].
    destruct (append_time t); cbn [bind]; auto.
    destruct (guard (negb ((nth 4 now 0 <? 0) || (nth 4 now 0 >? 255)))); cbn [bind]; auto.
    rewrite !sub_length by lia. change (negb (1 <? 1)%nat) with true. change (negb (4 <? 4)%nat) with true. cbn [guard bind].
    rewrite !Base.pad_copy_exact by (apply sub_length; lia). now rewrite sub_join. }
  rewrite W in IW |- * by auto. destruct (append_time t) as [t'| |] eqn:Tt; cbn [bind] in *; try discriminate.
  destruct (guard (negb ((nth 4 now 0 <? 0) || (nth 4 now 0 >? 255)))) as [[]| |]; cbn [bind] in *; try discriminate.
  apply append_time_length in Tt as [Lt _]. apply Ok_inj in IW. f_equal.
  rewrite app_assoc in IW |- *.
  assert (NS : now = sub now 0 5 ++ sub now 5 5).
  { do 10 (destruct now as [|? now]; [discriminate|]). destruct now; [|discriminate]. reflexivity. }
  rewrite NS in IW at 3. apply app_cut in IW as [-> _]; auto.
  rewrite app_length, Lt, sub_length by lia. reflexivity.
Qed.

Theorem C41_units_exact :
  forall d, bytes_ok d -> forall x, unmarshal_units_used d = Ok x ->
  let rec i := (2 + i * 10)%nat in
  let last := last_at_place 10 409 (skipn 2 d) in
  (forall i, (rec i + 10 <= length d)%nat -> exists j, last i j) /\
  (forall i j, last i j -> exists r, nth_error (uu_records x) i = Some r /\
     ur_time r = (if be (sub d (rec i) 4) =? 0 then None else Some (mkTs (be (sub d (rec i) 4)) 0)) /\
     ur_manufacturer r = nth (rec i + 4) d 0 /\
     ur_device r = sub d (rec j + 5) 1 /\ ur_version r = sub d (rec j + 6) 4) /\
  (exists d', append_units_used (Some x) = Ok d' /\ length d' = length d) /\
  (append_units_used (Some x) = Ok d <-> forall i j, last i j -> sub d (rec j + 5) 5 = sub d (rec i + 5) 5).
Proof.
  intros d H x U rec last. unfold unmarshal_units_used in U.
  apply bind_ok in U as (u1 & G1 & U). apply bind_ok in U as (u2 & G2 & U).
  apply bind_ok in U as (l & S & U). apply bind_ok in U as (rs & M & U). apply Ok_inj in U. subst x.
  apply guard_ok in G1. apply guard_ok in G2. apply Nat.eqb_eq in G2.
  destruct (Nat.ltb_spec (length d) 2) as [|L2]; [discriminate|]. clear G1.
  set (b := skipn 2 d) in *. assert (LB : length b = (length d - 2)%nat) by apply skipn_length.
  assert (BO : bytes_ok b) by now apply bytes_ok_skipn.
  assert (W0 : (length b mod 10 = 0)%nat) by (rewrite LB; auto).
  assert (SB : forall k n, sub b k n = sub d (2 + k) n) by (intros; apply sub_skipn).
  assert (NB : forall k, nth k b 0 = nth (2 + k) d 0) by (intros; apply nth_behind).
  destruct (scanned_nth _ 10 b l rs ltac:(lia) fits_10 S M) as [L Q].
  assert (IN : forall i, (i < length b / 10)%nat -> (i * 10 + 10 <= length b)%nat).
  { intros i I. pose proof (Nat.mul_div_le (length b) 10 ltac:(lia)). lia. }
  assert (SH : forall i j, last i j -> shown_in_the_end 10 b i = sub b (j * 10) 10).
  { intros i j (I & J & SP & LP). apply (shown_whole 10 b i j); auto; try lia; rewrite ?places_10; auto using fits_10. }
  cbn [uu_records append_units_used uu_newest].
  assert (R : forall i j r, last i j -> nth_error rs i = Some r ->
    append_unit_record r = Ok (sub d (rec i) 5 ++ sub d (rec j + 5) 5)).
  { intros i j r P E. destruct (Q i r E) as [I V]. pose proof (IN i I) as I2.
    rewrite (SH i j P) in V. destruct P as (_ & J & _). pose proof (IN j J) as J2.
    apply unit_rewritten in V; [|apply bytes_ok_sub; auto|apply sub_length; auto..].
    rewrite !sub_sub in V by lia. rewrite !SB in V. rewrite Nat.add_0_r in V. rewrite V. reflexivity. }
  assert (SZ : forall r w, In r rs -> append_unit_record r = Ok w -> length w = 10%nat).
  { intros r w I E. apply In_nth_error in I as [i Ei]. destruct (Q i r Ei) as [I _].
    destruct (last_at_place_10 b i I) as [j P]. rewrite (R i j r P Ei) in E. apply Ok_inj in E. subst w.
    pose proof (IN i I). destruct P as (_ & J & _). pose proof (IN j J).
    rewrite app_length, !sub_length; unfold rec; lia. }
  split; [|split; [|split]].
  - intros i I. apply last_at_place_10. unfold rec in I. apply Nat.div_le_lower_bound; lia.
  - intros i j P. pose proof (SH i j P) as SHP. destruct P as (I & J & _).
    pose proof (IN i I). pose proof (IN j J).
    destruct (nth_error rs i) as [r|] eqn:E; [|exfalso; apply nth_error_None in E; lia].
    exists r. split; auto. destruct (Q i r E) as [_ V]. rewrite SHP in V.
    unfold unmarshal_unit_record in V. cbn [fst snd] in V. rewrite eq_guard in V by (apply sub_length; lia). cbn [bind] in V.
    rewrite !nth_sub in V by lia. rewrite !sub_sub in V by lia. rewrite !SB, !NB in V.
    rewrite unmarshal_time_at in V by lia. cbn [bind] in V. apply Ok_inj in V. subst r.
    cbn [ur_time ur_manufacturer ur_device ur_version]. unfold rec. rewrite Nat.add_0_r. rewrite !Nat.add_assoc. auto.
  - assert (CR : exists bs, concat_res append_unit_record rs = Ok bs /\ length bs = length b).
    { assert (TOT : forall r, In r rs -> exists w, append_unit_record r = Ok w).
      { intros r I. apply In_nth_error in I as [i Ei]. destruct (Q i r Ei) as [I _].
        destruct (last_at_place_10 b i I) as [j P]. eexists. apply (R i j r P Ei). }
      assert (LL : (length b = length rs * 10)%nat).
      { rewrite L. pose proof (Nat.div_mod (length b) 10 ltac:(lia)). lia. }
      rewrite LL. clear - TOT SZ. induction rs as [|r rs IH]; [exists []; auto|].
      destruct (TOT r ltac:(now left)) as [w Ew].
      destruct IH as (bs & Ebs & Lbs); [intros r0 w0 I0; apply SZ; now right|intros r0 I0; apply TOT; now right|].
      exists (w ++ bs). cbn [concat_res]. rewrite Ew. cbn [bind]. rewrite Ebs. cbn [bind]. split; auto.
      rewrite app_length, (SZ r w ltac:(now left) Ew), Lbs. cbn [length]. lia. }
    destruct CR as (bs & -> & LBS). cbn [bind]. eexists. split; [reflexivity|]. rewrite app_length, to_be_length. lia.
  - assert (HD : to_be 2 (u16 (be (sub d 0 2))) = sub d 0 2).
    { unfold u16. change 65536 with (256 ^ Z.of_nat 2). rewrite to_be_mod.
      apply to_be_be; [now apply bytes_ok_sub|apply sub_length; lia]. }
    assert (DD : d = sub d 0 2 ++ b) by (unfold b, sub; cbn [skipn]; symmetry; apply firstn_skipn).
    transitivity (concat_res append_unit_record rs = Ok b).
    + rewrite HD. destruct (concat_res append_unit_record rs) as [bs| |]; cbn [bind]; [|split; discriminate..].
      split; intros E; apply Ok_inj in E.
      * rewrite DD in E at 2. apply app_cut in E as [_ ->]; auto.
      * subst bs. now rewrite <- DD.
    + rewrite (concat_whole append_unit_record 10 ltac:(lia) rs b L SZ). split.
      * intros [_ A] i j P. pose proof P as (I & J & _). pose proof (IN i I). pose proof (IN j J).
        destruct (nth_error rs i) as [r|] eqn:E; [|exfalso; apply nth_error_None in E; lia].
        specialize (A i r E). rewrite (R i j r P E) in A. apply Ok_inj in A.
        assert (X : sub b (i * 10) 10 = sub d (rec i) 5 ++ sub d (rec i + 5) 5).
        { rewrite SB. change (2 + i * 10)%nat with (rec i). now rewrite sub_join. }
        rewrite X in A. apply app_cut in A as [_ A]; auto.
      * intros A. split; auto. intros i r E. destruct (Q i r E) as [I _].
        destruct (last_at_place_10 b i I) as [j P]. rewrite (R i j r P E). rewrite (A i j P).
        rewrite SB. change (2 + i * 10)%nat with (rec i). now rewrite sub_join.
Qed.

(** 410 records come back if the last one names the device of the first. *)
Example C41_beyond_the_buffer :
  let d := [0; 1] ++ concat (repeat (unit_rec 7) 409) ++ [0; 0; 0; 0; 0x11; 7; 1; 2; 3; 4] in
  length d = (2 + 410 * 10)%nat /\
  exists x, unmarshal_units_used d = Ok x /\ append_units_used (Some x) = Ok d.
Proof.
  split; [vm_compute; reflexivity|]. eexists. split; [vm_compute; reflexivity|vm_compute; reflexivity].
Qed.

Print Assumptions C37_events_exact.
Print Assumptions C38_events_exact.
Print Assumptions C41_units_exact.
