(** What a first-generation overview of a vehicle unit is decoded to.

    As in Props_Layout.v a transfer is given as the concatenation of its documented
    parts (ASN.1 definition in internal/vu/overview_gen1.go:14-60). *)

From Verif Require Import Base Enums Chunks DDScalar Utf8 DDString DDRecord Vu P_Basic Props_Layout.

(** FullCardNumber: card type, issuing state, number. *)
Definition full_card (kind state : Z) (number : bytes) : bytes := [kind] ++ [state] ++ number.

(** ** Card numbers *)

(** The code the data dictionary gives driver, workshop and company cards. *)
Theorem C74_card_kinds_partial : forall kind state number n,
  length number = 16%nat ->
  unmarshal_full_card_number (full_card kind state number) = Ok n ->
  (kind = 1 \/ kind = 2 \/ kind = 4) /\ In (fcn_type n, Some kind) equipment_type_table.
Proof.
  intros k st m n L H. unfold unmarshal_full_card_number, full_card in H.
  apply bind_ok in H as (u & _ & H). apply bind_ok in H as (t & E & H). cbn [nth List.app] in E.
  apply unmarshal_enum_iff in E; [|enum_wf].
  assert (T : fcn_type n = t /\ (t = EQ_DRIVER_CARD \/ t = EQ_WORKSHOP_CARD \/ t = EQ_COMPANY_CARD)).
  { destruct (t =? EQ_DRIVER_CARD) eqn:A.
    - apply Z.eqb_eq in A. apply bind_ok in H as (x & _ & H). apply Ok_inj in H. subst n. auto.
    - destruct ((t =? EQ_WORKSHOP_CARD) || (t =? EQ_COMPANY_CARD)) eqn:B; [|discriminate H].
      apply bind_ok in H as (x & _ & H). apply Ok_inj in H. subst n. split; [reflexivity|].
      apply orb_prop in B as [B|B]; apply Z.eqb_eq in B; auto. }
  destruct T as [T D]. rewrite T. split; [|exact E].
  unfold EQ_DRIVER_CARD, EQ_WORKSHOP_CARD, EQ_COMPANY_CARD in D. unfold equipment_type_table in E.
  simpl in E.
  repeat (destruct E as [E|E]; [injection E; intros; subst; intuition congruence|]); contradiction.
Qed.

(** The card number of a control card is rejected. *)
Theorem C74_card_kinds_refuted :
  exists state number, length number = 16%nat /\
    In (5, Some 3) equipment_type_table /\
    unmarshal_full_card_number (full_card 3 state number) = fail.
Proof. exists 13, (repeat 49 16). repeat split. simpl. tauto. Qed.

Example C74_card_kinds_applies :
  exists n, unmarshal_full_card_number (full_card 1 13 (repeat 49 16)) = Ok n.
Proof. eexists. vm_compute. reflexivity. Qed.

(** ** Issuing states *)

(** The state byte becomes the enumeration number unchanged
    (internal/dd/full_card_number.go:47-49). *)
Lemma state_is_the_byte kind state number n :
  length number = 16%nat ->
  unmarshal_full_card_number (full_card kind state number) = Ok n -> fcn_state n = state.
Proof.
  intros L H. unfold unmarshal_full_card_number, full_card in H.
  apply bind_ok in H as (u & _ & H). apply bind_ok in H as (t & _ & H). cbn [nth List.app] in H.
  destruct (t =? EQ_DRIVER_CARD).
  - apply bind_ok in H as (x & _ & H). apply Ok_inj in H. now subst n.
  - destruct ((t =? EQ_WORKSHOP_CARD) || (t =? EQ_COMPANY_CARD)); [|discriminate H].
    apply bind_ok in H as (x & _ & H). apply Ok_inj in H. now subst n.
Qed.

(** Of all nations only code 56 (Kyrgyz Republic) has its code as enumeration
    number, so every other named issuing state is decoded to a different one.
    Writing casts back, which is why round trips do not notice. *)
Theorem C75_issuing_state_partial : forall kind state number n nation,
  length number = 16%nat -> In (nation, Some state) nation_numeric_table ->
  unmarshal_full_card_number (full_card kind state number) = Ok n ->
  (fcn_state n = nation <-> state = 56).
Proof.
  intros k st m n na L I H. apply state_is_the_byte in H; [|exact L]. rewrite H.
  assert (N : forallb (fun e => match snd e with Some p => eqb (fst e =? p) (p =? 56) | None => true end)
                nation_numeric_table = true) by (vm_compute; reflexivity).
  rewrite forallb_forall in N. apply N in I. cbn [fst snd] in I. apply eqb_prop in I.
  split.
  - intros ->. rewrite Z.eqb_refl in I. symmetry in I. now apply Z.eqb_eq in I.
  - intros E. assert (Q : (st =? 56) = true) by now apply Z.eqb_eq. rewrite Q in I.
    apply Z.eqb_eq in I. congruence.
Qed.

(** A German driver card (code 13, number 16) is reported as another state's. *)
Theorem C75_issuing_state_refuted :
  exists state number n other, length number = 16%nat /\
    unmarshal_full_card_number (full_card 1 state number) = Ok n /\
    In (fcn_state n, Some other) nation_numeric_table /\ other <> state.
Proof.
  exists 13, (repeat 49 16). do 2 eexists. split; [reflexivity|]. split; [vm_compute; reflexivity|].
  cbn [fcn_state]. split; [|shelve].
  apply (unmarshal_enum_iff nation_numeric_table 10 13); [enum_wf|vm_compute; reflexivity].
  Unshelve. discriminate.
Qed.

Example C75_issuing_state_applies :
  In (16, Some 13) nation_numeric_table /\
  exists n, unmarshal_full_card_number (full_card 1 13 (repeat 49 16)) = Ok n.
Proof. split; [simpl; tauto|]. eexists. vm_compute. reflexivity. Qed.

(** ** The overview *)

Lemma app_inj_len {A} (a b c d : list A) : length a = length c -> a ++ b = c ++ d -> a = c /\ b = d.
Proof.
  revert c. induction a as [|x a IH]; intros [|y c] L E; try discriminate L.
  - split; [reflexivity|exact E].
  - injection E as -> E. injection L as L. destruct (IH c L E) as [-> ->]. split; reflexivity.
Qed.

Lemma eat_part n l m : length l = n -> eat n (l ++ m) = Ok (l, m).
Proof.
  intros L. unfold eat. rewrite app_length, L.
  replace (n + length m <? n)%nat with false by (symmetry; apply Nat.ltb_ge; lia).
  cbn [negb guard bind]. subst n.
  rewrite firstn_app, Nat.sub_diag, firstn_all, firstn_O, app_nil_r.
  now rewrite skipn_app, Nat.sub_diag, skipn_all.
Qed.

Lemma eat_records_parts {X} (un : bytes -> res X) n bs : Forall (fun b => length b = n) bs ->
  forall m xs d, eat_records un n (length bs) (concat bs ++ m) = Ok (xs, d) ->
  d = m /\ Forall2 (fun b x => un b = Ok x) bs xs.
Proof.
  induction 1 as [|b bs L F' IH]; intros m xs d H.
  - cbn in H. apply Ok_inj in H. injection H as <- <-. split; [reflexivity|constructor].
  - cbn [length eat_records concat] in H. rewrite <- app_assoc, eat_part in H by exact L.
    cbn [bind] in H. apply bind_ok in H as (x & E & H). apply bind_ok in H as ([ys e] & E2 & H).
    apply Ok_inj in H. injection H as <- <-. apply IH in E2 as [-> E2]. split; [reflexivity|].
    now constructor.
Qed.

(** One VuCompanyLocksRecord: times in and out, name, address, card. *)
Definition is_lock (b : bytes) (l : company_lock) : Prop :=
  exists t_in t_out name address card,
    b = t_in ++ t_out ++ name ++ address ++ card /\
    length t_in = 4%nat /\ length t_out = 4%nat /\ length name = 36%nat /\
    length address = 36%nat /\ length card = 18%nat /\
    is_time t_in (cl_in l) /\ is_time t_out (cl_out l) /\ text_of name (cl_name l) /\
    text_of address (cl_address l) /\
    exists n, cl_card l = Some n /\ unmarshal_full_card_number card = Ok n.

(** One VuControlActivityRecord: type, time, card, begin and end of the period. *)
Definition is_control (b : bytes) (c : vu_control) : Prop :=
  exists kind time card t_begin t_end,
    b = [kind] ++ time ++ card ++ t_begin ++ t_end /\
    length time = 4%nat /\ length card = 18%nat /\ length t_begin = 4%nat /\
    length t_end = 4%nat /\
    is_time time (vc_time c) /\ is_time t_begin (vc_begin c) /\ is_time t_end (vc_end c) /\
    exists n, vc_card c = Some n /\ unmarshal_full_card_number card = Ok n.

Lemma split_at {A} (l : list A) n : (n <= length l)%nat ->
  exists a b, l = a ++ b /\ length a = n /\ length b = (length l - n)%nat.
Proof.
  intros H. exists (firstn n l), (skipn n l). rewrite firstn_skipn, firstn_length, skipn_length.
  repeat split; lia.
Qed.

Lemma lock_parts cm b l : length b = 98%nat -> unmarshal_lock cm b = Ok l -> is_lock b l.
Proof.
  intros L H.
  destruct (split_at b 4) as (p1 & r1 & -> & L1 & M1); [lia|].
  destruct (split_at r1 4) as (p2 & r2 & -> & L2 & M2); [lia|].
  destruct (split_at r2 36) as (p3 & r3 & -> & L3 & M3); [lia|].
  destruct (split_at r3 36) as (p4 & p5 & -> & L4 & M4); [lia|].
  assert (L5 : length p5 = 18%nat) by (rewrite ?app_length in *; lia). clear M1 M2 M3 M4 L.
  unfold unmarshal_lock in H. cut H. opened H. decoded.
  exists p1, p2, p3, p4, p5. cbn [cl_in cl_out cl_name cl_address cl_card].
  do 10 (split; [first [reflexivity|assumption]|]). eexists. split; [reflexivity|assumption].
Qed.

Lemma control_parts b c : length b = 31%nat -> unmarshal_vu_control b = Ok c -> is_control b c.
Proof.
  intros L H.
  destruct (split_at b 1) as (p1 & r1 & -> & L1 & M1); [lia|].
  destruct (split_at r1 4) as (p2 & r2 & -> & L2 & M2); [lia|].
  destruct (split_at r2 18) as (p3 & r3 & -> & L3 & M3); [lia|].
  destruct (split_at r3 4) as (p4 & p5 & -> & L4 & M4); [lia|].
  assert (L5 : length p5 = 4%nat) by (rewrite ?app_length in *; lia). clear M1 M2 M3 M4 L.
  destruct p1 as [|k [|? ?]]; try discriminate L1.
  unfold unmarshal_vu_control in H. cut H. opened H. decoded.
  exists k, p2, p3, p4, p5. cbn [vc_time vc_begin vc_end vc_card].
  do 8 (split; [first [reflexivity|assumption]|]). eexists. split; [reflexivity|assumption].
Qed.

Lemma parts_of {X} (un : bytes -> res X) (P : bytes -> X -> Prop) n bs xs :
  (forall b x, length b = n -> un b = Ok x -> P b x) ->
  Forall (fun b => length b = n) bs -> Forall2 (fun b x => un b = Ok x) bs xs -> Forall2 P bs xs.
Proof.
  intros H A. induction 1; [constructor|]. apply Forall_cons_iff in A as [A1 A2].
  constructor; auto.
Qed.

(** The documented overview. *)
Definition overview_bytes ms vc vin nation number now t_min t_max slots d_time d_card d_name
  (locks controls : list bytes) signature : bytes :=
  ms ++ vc ++ vin ++ ([nation] ++ number) ++ now ++ (t_min ++ t_max) ++ [slots] ++
  (d_time ++ d_card ++ d_name) ++ [Z.of_nat (length locks)] ++ concat locks ++
  [Z.of_nat (length controls)] ++ concat controls ++ signature.

Theorem C76_overview_layout :
  forall cm ms vc vin nation number now t_min t_max slots d_time d_card d_name locks controls
         signature x,
  length ms = 194%nat -> length vc = 194%nat -> length vin = 17%nat -> length number = 14%nat ->
  length now = 4%nat -> length t_min = 4%nat -> length t_max = 4%nat -> length d_time = 4%nat ->
  length d_card = 18%nat -> length d_name = 36%nat -> length signature = 128%nat ->
  Forall (fun b => length b = 98%nat) locks -> Forall (fun b => length b = 31%nat) controls ->
  unmarshal_overview_gen1 cm
    (overview_bytes ms vc vin nation number now t_min t_max slots d_time d_card d_name
       locks controls signature) = Ok x ->
  ov_ms_cert x = ms /\ ov_vu_cert x = vc /\ ascii_of vin (ov_vin x) /\
  registration_of nation number (ov_reg x) /\ is_time now (ov_time x) /\
  (exists a b, ov_period x = Some (a, b) /\ is_time t_min a /\ is_time t_max b) /\
  (exists d, ov_downloads x = [d] /\ is_time d_time (da_time d) /\ text_of d_name (da_name d) /\
     exists n, da_card d = Some n /\ unmarshal_full_card_number d_card = Ok n) /\
  Forall2 is_lock locks (ov_locks x) /\ Forall2 is_control controls (ov_controls x) /\
  ov_signature x = signature /\
  ov_driver_slot x = slots mod 16 /\ ov_codriver_slot x = slots / 16 mod 16.
Proof.
  intros cm ms vc vin na nu now tm tx sl dt dc dn ls cs sg x L1 L2 L3 L4 L5 L6 L7 L8 L9 L10 L11 FL FC H.
  unfold unmarshal_overview_gen1, overview_bytes in H. cbv zeta in H.
  assert (V : length ([na] ++ nu) = 15%nat) by (rewrite app_length, L4; reflexivity).
  assert (T : length (tm ++ tx) = 8%nat) by (rewrite app_length, L6, L7; reflexivity).
  assert (D : length (dt ++ dc ++ dn) = 58%nat) by (rewrite !app_length, L8, L9, L10; reflexivity).
  remember ([na] ++ nu) as v eqn:Ev. remember (tm ++ tx) as per eqn:Ep.
  remember (dt ++ dc ++ dn) as act eqn:Ea.
  rewrite (eat_part 194 ms) in H by exact L1. cbn [bind] in H.
  rewrite (eat_part 194 vc) in H by exact L2. cbn [bind] in H.
  rewrite (eat_part 17 vin) in H by exact L3. cbn [bind] in H. apply bind_ok in H as (vi & E1 & H).
  rewrite (eat_part 15 v) in H by exact V. cbn [bind] in H. apply bind_ok in H as (rg & E2 & H).
  rewrite (eat_part 4 now) in H by exact L5. cbn [bind] in H. apply bind_ok in H as (nw & E3 & H).
  rewrite (eat_part 8 per) in H by exact T. cbn [bind] in H. apply bind_ok in H as (ta & E4 & H).
  apply bind_ok in H as (tb & E5 & H).
  rewrite (eat_part 1 [sl]) in H by reflexivity. cbn [bind] in H.
  rewrite (eat_part 58 act) in H by exact D. cbn [bind] in H. apply bind_ok in H as (da & E6 & H).
  apply bind_ok in H as (db & E7 & H). apply bind_ok in H as (dd & E8 & H).
  rewrite (eat_part 1 [Z.of_nat (length ls)]) in H by reflexivity. cbn [bind nth] in H.
  rewrite Nat2Z.id in H. apply bind_ok in H as (u1 & _ & H). apply bind_ok in H as ([ys d1] & E9 & H).
  apply eat_records_parts in E9 as [-> E9]; [|exact FL].
  rewrite (eat_part 1 [Z.of_nat (length cs)]) in H by reflexivity. cbn [bind nth] in H.
  rewrite Nat2Z.id in H. apply bind_ok in H as (u2 & _ & H). apply bind_ok in H as ([zs d2] & E10 & H).
  apply eat_records_parts in E10 as [-> E10]; [|exact FC].
  rewrite <- (app_nil_r sg) in H at 1. rewrite (eat_part 128 sg []) in H by exact L11.
  cbn [bind] in H. apply bind_ok in H as (u3 & _ & H). apply Ok_inj in H. subst x.
  subst per act. cut E4. cut E5. cut E6. cut E7. cut E8. subst v. decoded.
  cbn [ov_ms_cert ov_vu_cert ov_vin ov_reg ov_time ov_period ov_downloads ov_locks ov_controls ov_signature].
  split; [reflexivity|]. split; [reflexivity|]. split; [assumption|]. split; [assumption|].
  split; [assumption|]. split; [eauto|]. split.
  { eexists. split; [reflexivity|]. cbn [da_time da_name da_card]. eauto. }
  split; [eapply parts_of; [intros; eapply lock_parts; eauto|exact FL|exact E9]|].
  split; [eapply parts_of; [exact control_parts|exact FC|exact E10]|].
  cbn [ov_driver_slot ov_codriver_slot nth]. split; [reflexivity|].
  change 15 with (Z.ones 4). rewrite !Z.land_ones, Z.shiftr_div_pow2 by lia. split; reflexivity.
Qed.

(** ** Controls *)

(** Controls are made with control cards (code 3), and the parser knows no number
    of such a card.  So an overview listing one control made with a control card is
    rejected as a whole. *)
Theorem C77_overview_of_a_controlled_vehicle :
  forall cm ms vc vin nation number now t_min t_max slots d_time d_card d_name locks controls
         signature before kind time state card t_begin t_end after x,
  length ms = 194%nat -> length vc = 194%nat -> length vin = 17%nat -> length number = 14%nat ->
  length now = 4%nat -> length t_min = 4%nat -> length t_max = 4%nat -> length d_time = 4%nat ->
  length d_card = 18%nat -> length d_name = 36%nat -> length signature = 128%nat ->
  Forall (fun b => length b = 98%nat) locks -> Forall (fun b => length b = 31%nat) controls ->
  length time = 4%nat -> length card = 16%nat -> length t_begin = 4%nat -> length t_end = 4%nat ->
  controls = before ++ ([kind] ++ time ++ full_card 3 state card ++ t_begin ++ t_end) :: after ->
  unmarshal_overview_gen1 cm
    (overview_bytes ms vc vin nation number now t_min t_max slots d_time d_card d_name
       locks controls signature) <> Ok x.
Proof.
  intros until x. intros L1 L2 L3 L4 L5 L6 L7 L8 L9 L10 L11 FL FC M1 M2 M3 M4 -> H.
  apply C76_overview_layout in H; try assumption.
  destruct H as (_ & _ & _ & _ & _ & _ & _ & _ & F2 & _).
  apply Forall2_app_inv_l in F2 as (l1 & l2 & _ & F2 & _). inversion F2 as [|b c bs l P Q]; subst.
  destruct P as (k & t & ca & tb & te & E & N1 & N2 & N3 & N4 & _ & _ & _ & n & _ & U).
  injection E as _ E.
  assert (C : full_card 3 state card = ca).
  { assert (X : length time = length t) by lia.
    apply app_inj_len in E as [_ E]; [|exact X].
    change (full_card 3 state card ++ (t_begin ++ t_end) = ca ++ (tb ++ te)) in E.
    apply app_inj_len in E as [E _]; [exact E|]. unfold full_card. rewrite !app_length, M2. cbn. lia. }
  subst ca. apply C74_card_kinds_partial in U as [[U|[U|U]] _]; [lia|lia|lia|exact M2].
Qed.

(** ** Card slots *)

(** The two halves of the slot byte become enumeration numbers unchanged
    (overview_gen1.go:136-145), while the enumeration counts from 2. *)
Theorem C78_slots_misread :
  forall cm ms vc vin nation number now t_min t_max driver codriver d_time d_card d_name locks
         controls signature x v w,
  length ms = 194%nat -> length vc = 194%nat -> length vin = 17%nat -> length number = 14%nat ->
  length now = 4%nat -> length t_min = 4%nat -> length t_max = 4%nat -> length d_time = 4%nat ->
  length d_card = 18%nat -> length d_name = 36%nat -> length signature = 128%nat ->
  Forall (fun b => length b = 98%nat) locks -> Forall (fun b => length b = 31%nat) controls ->
  In (v, Some driver) slot_card_type_table -> In (w, Some codriver) slot_card_type_table ->
  unmarshal_overview_gen1 cm
    (overview_bytes ms vc vin nation number now t_min t_max (codriver * 16 + driver)
       d_time d_card d_name locks controls signature) = Ok x ->
  ov_driver_slot x = driver /\ v = driver + 2 /\
  ov_codriver_slot x = codriver /\ w = codriver + 2.
Proof.
  intros until w. intros L1 L2 L3 L4 L5 L6 L7 L8 L9 L10 L11 FL FC V W H.
  apply C76_overview_layout in H; try assumption.
  destruct H as (_ & _ & _ & _ & _ & _ & _ & _ & _ & _ & A & B).
  assert (Q : forall a b, In (a, Some b) slot_card_type_table -> a = b + 2 /\ 0 <= b < 16).
  { intros a b I. unfold slot_card_type_table in I. simpl in I.
    repeat (destruct I as [I|I]; [injection I; intros; subst; split; lia || discriminate I|]) || idtac.
    all: try contradiction; try (destruct I as [I|I]; [discriminate I|]). }
  apply Q in V as [-> V], W as [-> W]. rewrite A, B.
  repeat split.
  - rewrite Z.add_comm, Z.mod_add by lia. apply Z.mod_small. lia.
  - replace ((codriver * 16 + driver) / 16) with codriver; [apply Z.mod_small; lia|].
    apply (Z.div_unique _ 16 codriver driver); lia.
Qed.

(** A downloaded overview: two driver cards inserted, one lock, one control made
    with a workshop card. *)
Definition demo_card (kind : Z) : bytes := full_card kind 13 (repeat 49 16).
Definition demo_overview (control_card : Z) : bytes :=
  overview_bytes (repeat 1 194) (repeat 2 194) (repeat 87 17) 13 sample_number sample_time
    sample_time sample_time (1 * 16 + 1) sample_time (demo_card 4) sample_name
    [sample_time ++ sample_time ++ sample_name ++ sample_name ++ demo_card 4]
    [[128] ++ sample_time ++ demo_card control_card ++ sample_time ++ sample_time]
    (repeat 3 128).

Example C76_overview_applies :
  accepted (unmarshal_overview_gen1 (fun _ b => b) (demo_overview 2)) /\
  ~ accepted (unmarshal_overview_gen1 (fun _ b => b) (demo_overview 3)).
Proof.
  split; [eexists; vm_compute; reflexivity|].
  intros [x H]. vm_compute in H. discriminate H.
Qed.

(** The two overviews differ in the type of one card; the one naming the control
    card is rejected. *)
Theorem C77_controlled_refuted :
  exists d, d = demo_overview 3 /\ unmarshal_overview_gen1 (fun _ b => b) d = fail /\
    accepted (unmarshal_overview_gen1 (fun _ b => b) (demo_overview 2)).
Proof.
  eexists. split; [reflexivity|]. split; [vm_compute; reflexivity|]. eexists. vm_compute. reflexivity.
Qed.

(** The driver slot holds a driver card (code 1, number 3); the code reports number
    1, UNRECOGNIZED. *)
Theorem C78_slots_refuted :
  exists x, unmarshal_overview_gen1 (fun _ b => b) (demo_overview 2) = Ok x /\
    In (3, Some 1) slot_card_type_table /\ ov_driver_slot x = 1.
Proof. eexists. split; [vm_compute; reflexivity|]. split; [simpl; tauto|reflexivity]. Qed.
