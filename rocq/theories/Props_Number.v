(** The remaining parts of card records: the card number of EF Identification, the
    birth date, the daily presence counters and the activity changes, stated as in
    Props_Layout.v: records are concatenations of their documented parts. *)

From Verif Require Import Base Enums DDScalar Utf8 DDString DDRecord CardBasic CardIdent
  CardRecords CardActivity P_Basic Field Props_Scalar Props_Activity Props_Ident Props_Layout
  Props_VuActivities.

(** A four-digit counter of two bytes, one decimal digit in each half byte. *)
Definition counter_of (l : bytes) (o : option bcd_string) : Prop :=
  exists h k s, l = [h; k] /\ o = Some s /\ bcd_length s = 2 /\
    h / 16 < 10 /\ h mod 16 < 10 /\ k / 16 < 10 /\ k mod 16 < 10 /\
    bcd_value s = h / 16 * 1000 + h mod 16 * 100 + k / 16 * 10 + k mod 16.

Lemma counter_is l s : bytes_ok l -> length l = 2%nat ->
  unmarshal_bcd_string l = Ok s -> counter_of l (Some s).
Proof.
  intros B L H. destruct l as [|h [|k [|? ?]]]; try discriminate L.
  rewrite !bytes_ok_cons in B. destruct B as (B1 & B2 & _). unfold byte_ok in *.
  unfold unmarshal_bcd_string in H. inv_bind H. inv_bind H. apply Ok_inj in H. subst s.
  match goal with Q : decode_bcd _ = Ok ?v |- _ => rename Q into D end.
  unfold decode_bcd in D. cbn [length Nat.eqb nibbles forallb] in D.
  match type of D with (if ?c then _ else _) = _ => destruct c eqn:C; [|discriminate D] end.
  apply Ok_inj in D. subst. apply andb_prop in C as [C _].
  repeat match type of C with (_ && _) = true => apply andb_prop in C as [?C C] end.
  repeat match goal with Q : (_ <? _) = true |- _ => apply Z.ltb_lt in Q end.
  exists h, k. eexists. split; [reflexivity|]. split; [reflexivity|]. cbn [bcd_length bcd_value].
  assert (V : dec_val [h / 16; h mod 16; k / 16; k mod 16] =
              h / 16 * 1000 + h mod 16 * 100 + k / 16 * 10 + k mod 16)
    by (unfold dec_val; cbn [fold_left]; lia).
  rewrite V. repeat (split; [first [reflexivity|assumption]|]).
  unfold s32. cbn zeta. rewrite Z.mod_small by lia.
  destruct (_ <? _) eqn:S; [reflexivity|]. apply Z.ltb_ge in S. lia.
Qed.

(** ** C73, continued *)

(** proto dd/v1/card_vehicle_record.proto and card_vehicle_record_g2.proto: the last
    part of a record of vehicles used. *)
Theorem C73_vehicle_counter :
  forall cm odo_begin odo_end first last nation number counter,
  length odo_begin = 3%nat -> length odo_end = 3%nat -> length first = 4%nat ->
  length last = 4%nat -> length number = 14%nat -> length counter = 2%nat -> bytes_ok counter ->
  (forall r, unmarshal_card_vehicle cm
      (odo_begin ++ odo_end ++ first ++ last ++ ([nation] ++ number) ++ counter) = Ok r ->
    counter_of counter (cv_counter r)) /\
  (forall vin r, length vin = 17%nat -> unmarshal_card_vehicle_g2 cm
      (odo_begin ++ odo_end ++ first ++ last ++ ([nation] ++ number) ++ counter ++ vin) = Ok r ->
    counter_of counter (cv2_counter r)).
Proof.
  intros cm ob oe f l n x c L1 L2 L3 L4 L5 L6 B.
  assert (L7 : length ([n] ++ x) = 15%nat) by (rewrite app_length, L5; reflexivity).
  remember ([n] ++ x) as v eqn:Ev. split.
  - intros r H. unfold unmarshal_card_vehicle in H. cut H. opened H. cbn [cv_counter].
    now apply counter_is.
  - intros w r L8 H. unfold unmarshal_card_vehicle_g2 in H. cut H. opened H. cbn [cv2_counter].
    now apply counter_is.
Qed.

(** One ActivityChangeInfo, [scpaattt tttttttt] (data dictionary 2.1): slot, crew, card
    not inserted, activity, minutes since midnight. *)
Definition is_change (v : Z) (c : activity_change) : Prop :=
  v = 32768 * (ac_slot c - 2) + 16384 * (if ac_crew c then 1 else 0) +
      8192 * (if ac_inserted c then 0 else 1) + 2048 * (ac_activity c - 2) + ac_minutes c /\
  (ac_slot c = 2 \/ ac_slot c = 3) /\ 2 <= ac_activity c <= 5 /\ 0 <= ac_minutes c < 2048.

(** A daily record of EF Driver_Activity_Data (data dictionary 2.9): the entries
    0x0000 and 0xFFFF are left out, as C46_changes_refuted says. *)
Theorem C73_day_layout : forall previous own date counter distance entries r,
  length previous = 2%nat -> length own = 2%nat -> length date = 4%nat ->
  length counter = 2%nat -> length distance = 2%nat ->
  bytes_ok counter -> Forall (fun e => bytes_ok e /\ length e = 2%nat) entries ->
  parse_day (previous ++ own ++ date ++ counter ++ distance ++ concat entries) = Ok r ->
  day_prev r = num previous /\ day_len r = num own /\ is_time date (day_date r) /\
  counter_of counter (day_counter r) /\ day_distance r = num distance /\
  Forall2 is_change (filter (fun v => negb ((v =? 0) || (v =? 65535))) (map num entries)) (day_changes r).
Proof.
  intros p o t c k es r L1 L2 L3 L4 L5 B Es H. unfold parse_day in H.
  assert (K : skipn 12 (p ++ o ++ t ++ c ++ k ++ concat es) = concat es).
  { rewrite !app_assoc. apply skipn_app_exact. rewrite !app_length. lia. }
  rewrite K in H. clear K.
  assert (X : forall m n, (m + n <= 12)%nat ->
    sub (p ++ o ++ t ++ c ++ k ++ concat es) m n = sub (p ++ o ++ t ++ c ++ k) m n).
  { intros m n Hn. replace (p ++ o ++ t ++ c ++ k ++ concat es) with ((p ++ o ++ t ++ c ++ k) ++ concat es)
      by now rewrite <- !app_assoc.
    unfold sub. assert (Lt : length (p ++ o ++ t ++ c ++ k) = 12%nat) by (rewrite !app_length; lia).
    rewrite skipn_app. rewrite firstn_app.
    replace (n - length (skipn m (p ++ o ++ t ++ c ++ k)))%nat with 0%nat
      by (rewrite skipn_length; lia).
    cbn [firstn]. now rewrite app_nil_r. }
  rewrite !X in H by lia. clear X. cut H. opened H. decoded.
  cbn [day_prev day_len day_date day_counter day_distance day_changes].
  rewrite !num_be. repeat (split; [first [reflexivity|assumption|now apply counter_is]|]).
  match goal with Q : parse_changes _ = Ok ?l |- _ => rename Q into P; rename l into cs end.
  clear - Es P. revert cs P. induction Es as [|e es [Be Le] Es IH]; intros cs P.
  - apply Ok_inj in P. subst cs. constructor.
  - destruct e as [|b0 [|b1 [|? ?]]]; try discriminate Le.
    rewrite !bytes_ok_cons in Be. destruct Be as (B0 & B1 & _).
    cbn [concat List.app parse_changes] in P. cbn [map filter].
    rewrite num_be. destruct ((be [b0; b1] =? 0) || (be [b0; b1] =? 65535)); cbn [negb].
    + now apply IH.
    + destruct (change_decode b0 b1 B0 B1) as (x & U & _ & Cb). rewrite U in P. cbn [bind] in P.
      inv_bind P. apply Ok_inj in P. subst cs. constructor; [|now apply IH].
      unfold change_bits, activity_bits in Cb. unfold is_change.
      assert (be [b0; b1] = 256 * b0 + b1) by (change (be [b0; b1]) with (b0 * 256 + b1); lia).
      unfold unmarshal_activity_change in U. inv_bind U. inv_bind U. inv_bind U. apply Ok_inj in U. subst x.
      cbn [ac_slot ac_crew ac_inserted ac_activity ac_minutes] in *.
      split; [lia|].
      match goal with Q : unmarshal_enum card_slot_number_table ?a = Ok _,
                      R : unmarshal_enum driver_activity_value_table ?b = Ok _ |- _ =>
        rename Q into Sl; rename R into Ac end.
      apply unmarshal_enum_iff in Sl; [|apply enum_wf; known].
      apply unmarshal_enum_iff in Ac; [|apply enum_wf; known].
      split; [|split].
      * cbn in Sl. destruct Sl as [Q|[Q|[Q|[Q|[]]]]]; inversion Q; subst; auto.
      * cbn in Ac. destruct Ac as [Q|[Q|[Q|[Q|[Q|[Q|[]]]]]]]; inversion Q; subst; lia.
      * lia.
Qed.

Example C73_day_applies :
  exists r, parse_day ([0; 0] ++ [0; 18] ++ [95; 0; 0; 0] ++ [18; 52] ++ [1; 0] ++
                       concat [[0; 0]; [104; 30]; [128; 7]]) = Ok r /\
    counter_of [18; 52] (day_counter r) /\ length (day_changes r) = 2%nat.
Proof.
  eexists. split; [vm_compute; reflexivity|]. split; [|reflexivity].
  exists 18, 52. eexists. repeat split; lia.
Qed.

(** ** C93: the card number *)

Definition decimal_digit (b : Z) : Prop := 48 <= b <= 57.

(** The number of EF Identification and the birth date.  Data dictionary 2.26 has two
    forms of a card number, [14 + 1 + 1] bytes on driver cards and [13 + 1 + 1 + 1]
    on the others.  The reader never looks at the card type: the form, and the
    reported type, is decided by the last two bytes. *)
Theorem C93_card_number :
  forall cm nation number replacement renewal authority issue valid expiry surname names birth language x,
  length number = 14%nat -> length authority = 36%nat -> length issue = 4%nat ->
  length valid = 4%nat -> length expiry = 4%nat -> length surname = 36%nat ->
  length names = 36%nat -> length birth = 4%nat -> length language = 2%nat ->
  unmarshal_identification cm
    ([nation] ++ (number ++ [replacement] ++ [renewal]) ++ authority ++ issue ++ valid ++ expiry ++
     surname ++ names ++ birth ++ language) = Ok x ->
  exists c h, ident_card_part x = Some c /\ ident_holder_part x = Some h /\ is_date birth (ih_birth h) /\
  (decimal_digit replacement /\ decimal_digit renewal ->
     ident_type x = 1 /\ exists n, id_number c = CN_driver n /\
     ascii_of number (dn_number n) /\ ascii_of [replacement] (dn_replacement n) /\
     ascii_of [renewal] (dn_renewal n)) /\
  (~ (decimal_digit replacement /\ decimal_digit renewal) ->
     ident_type x = 2 /\ exists n owner consecutive, id_number c = CN_owner n /\
     number = owner ++ [consecutive] /\
     ascii_of owner (oi_number n) /\ ascii_of [consecutive] (oi_consecutive n) /\
     ascii_of [replacement] (oi_replacement n) /\ ascii_of [renewal] (oi_renewal n)).
Proof.
  intros cm n m rp rn a i v e s f b l x L1 L2 L3 L4 L5 L6 L7 L8 L9 H.
  assert (Lm : length (m ++ [rp] ++ [rn]) = 16%nat) by (rewrite !app_length; cbn; lia).
  remember (m ++ [rp] ++ [rn]) as num16 eqn:En.
  unfold unmarshal_identification in H. cut H. opened H.
  match goal with Q : unmarshal_date _ = Ok _ |- _ => apply date_is in Q; rename Q into D end.
  match goal with Q : unmarshal_card_number _ = Ok ?p |- _ => rename Q into N; rename p into tn end.
  do 2 eexists. split; [reflexivity|]. split; [reflexivity|]. split; [exact D|].
  cbn [ident_type id_number]. clear - N L1.
  unfold unmarshal_card_number in N. cut N.
  assert (I : unmarshal_ia5 m = Ok (mkIA5 (Some m) (Some 14) (match unmarshal_ia5 m with Ok z => ia5_value z | _ => [] end))).
  { unfold unmarshal_ia5. rewrite L1. reflexivity. }
  rewrite I in N. clear I.
  destruct (digitb rp && digitb rn) eqn:Dg.
  - apply Ok_inj in N. subst tn. cbn [fst snd].
    unfold digitb in Dg. split; [|unfold decimal_digit; intros Z; exfalso; apply Z; lia].
    intros _. split; [reflexivity|]. eexists. split; [reflexivity|].
    cbn [dn_number dn_replacement dn_renewal].
    split; [|split]; eexists; split; reflexivity.
  - split; [unfold decimal_digit, digitb in *; lia|]. intros _.
    opened N. cbn [fst snd]. split; [reflexivity|].
    destruct (@exists_last _ m) as (o & c & Em); [now destruct m|].
    assert (Lo : length o = 13%nat) by (apply (f_equal (@length Z)) in Em; rewrite app_length in Em; cbn in Em; lia).
    subst m.
    assert (S1 : sub ((o ++ [c]) ++ [rp] ++ [rn]) 0 13 = o)
      by (rewrite <- app_assoc; now apply sub_app_l).
    assert (S2 : sub ((o ++ [c]) ++ [rp] ++ [rn]) 13 1 = [c]).
    { rewrite <- app_assoc. rewrite cut_skip by lia. rewrite Lo. reflexivity. }
    cbn [List.app] in *.
    do 3 eexists. split; [reflexivity|]. split; [reflexivity|].
    cbn [oi_number oi_consecutive oi_replacement oi_renewal].
    repeat match goal with Q : unmarshal_ia5 _ = Ok _ |- _ => apply ascii_is in Q end.
    rewrite S1 in *. rewrite S2 in *. auto.
Qed.

(** The documented claim, that a driver card's number is reported in its three parts,
    fails for cards replaced or renewed ten times or more: the indexes run
    0, ..., 9, A, ..., Z (data dictionary 2.30 and 2.31).  Such a card is reported
    as a workshop card, and its identification loses its last character. *)
Definition letter_card (replacement renewal : Z) : bytes :=
  [13] ++ (repeat 49 13 ++ [55] ++ [replacement] ++ [renewal]) ++ sample_name ++
  sample_time ++ sample_time ++ sample_time ++ sample_name ++ sample_name ++ [25; 128; 1; 2] ++ [102; 105].

Theorem C93_letter_index_refuted : forall cm,
  exists x c n, unmarshal_identification cm (letter_card 65 48) = Ok x /\
    ident_type x = 2 /\ ident_card_part x = Some c /\ id_number c = CN_owner n /\
    ascii_of (repeat 49 13) (oi_number n) /\ ascii_of [55] (oi_consecutive n).
Proof.
  intros cm.
  destruct (C36_identification_partial cm (letter_card 65 48)) as (x & E & _).
  { apply bytes_okb_ok. vm_compute. reflexivity. }
  { vm_compute. reflexivity. }
  assert (G := E). unfold letter_card in G.
  apply (C93_card_number cm 13 (repeat 49 13 ++ [55]) 65 48 sample_name sample_time sample_time sample_time
           sample_name sample_name [25; 128; 1; 2] [102; 105] x) in G; try reflexivity.
  destruct G as (c & h & C & _ & _ & _ & G). destruct G as (T & n & o & k & N & S & O & K & _).
  - unfold decimal_digit. lia.
  - exists x, c, n. split; [exact E|]. split; [exact T|]. split; [exact C|]. split; [exact N|].
    apply app_inj_tail in S as [<- <-]. split; assumption.
Qed.

Example C93_digits :
  exists x, unmarshal_identification (fun _ b => b) (letter_card 48 49) = Ok x /\ ident_type x = 1.
Proof. eexists. split; [vm_compute; reflexivity|reflexivity]. Qed.

Example C73_vehicle_counter_applies :
  let t := sample_time in let cm := fun _ b => b in
  accepted (unmarshal_card_vehicle cm ([0; 0; 1] ++ [0; 0; 2] ++ t ++ t ++ ([13] ++ sample_number) ++ [18; 52])) /\
  accepted (unmarshal_card_vehicle_g2 cm ([0; 0; 1] ++ [0; 0; 2] ++ t ++ t ++ ([13] ++ sample_number) ++
              [18; 52] ++ repeat 87 17)).
Proof. unfold accepted. split; eexists; vm_compute; reflexivity. Qed.
