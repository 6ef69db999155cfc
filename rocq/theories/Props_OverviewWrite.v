(** Property C81: writing the overview of a first-generation vehicle unit. *)
From Verif Require Import Base Enums Chunks DDScalar Utf8 DDString DDRecord RawTypes Vu
  P_Scalar Props_Scalar P_Utf8 P_String Field P_Basic P_Record P_VuRecord Props_Layout Props_Overview Props_VuWrite P_OverviewWrite.

(** What a card number, a lock and a control must look like to survive. *)
Definition kept_card (c : bytes) : Prop :=
  exists kind state number, c = full_card kind state number /\ length number = 16%nat /\ no_indexes kind number.
Definition kept_lock (b : bytes) : Prop :=
  exists t_in t_out name address card, b = t_in ++ t_out ++ name ++ address ++ card /\
    length t_in = 4%nat /\ length t_out = 4%nat /\ length name = 36%nat /\ length address = 36%nat /\
    known_text name /\ known_text address /\ kept_card card.
Definition kept_control (b : bytes) : Prop :=
  exists kind time card t_begin t_end, b = [kind] ++ time ++ card ++ t_begin ++ t_end /\
    length time = 4%nat /\ length t_begin = 4%nat /\ length t_end = 4%nat /\ kept_card card.

Lemma kept_card_iff c : length c = 18%nat -> (w_fcn c = c <-> kept_card c).
Proof.
  intros L. destruct c as [|k [|s l]]; try discriminate L. injection L as L.
  unfold w_fcn. cbn [nth]. unfold kept_card. destruct (Z.eqb_spec k 1) as [K|K].
  - change (firstn 16 (k :: s :: l)) with (k :: s :: firstn 14 l). split.
    + intros E. cbn [List.app] in E. injection E as E. apply last_two in E; [|exact L].
      exists k, s, l. repeat split; auto; tauto.
    + intros (k' & s' & l' & E & L' & N). unfold full_card in E. cbn [List.app] in E. injection E as <- <- <-.
      cbn [List.app]. do 2 f_equal. apply last_two; [exact L|]. apply N, K.
  - split; [|reflexivity]. intros _. exists k, s, l. split; [reflexivity|split; [exact L|intros C; contradiction]].
Qed.

Lemma kept_text_iff l : bytes_ok l -> (1 <= length l)%nat -> (w_string l = l <-> known_text l).
Proof.
  intros B L. pose proof (exact_string l 0 (length l) L (le_n _) B) as Q.
  rewrite sub_whole in Q by reflexivity. cbn [f_string f_fun f_w] in Q. unfold known_text. rewrite <- Q.
  split; [now intros ->|apply Ok_inj].
Qed.

Lemma kept_lock_iff b : bytes_ok b -> length b = 98%nat -> (w_lock b = b <-> kept_lock b).
Proof.
  intros B L.
  assert (Sb : b = sub b 0 4 ++ sub b 4 4 ++ sub b 8 36 ++ sub b 44 36 ++ sub b 80 18).
  { rewrite <- (sub_whole b 98) at 1 by exact L.
    rewrite (sub_split b 0 98 4 94 4), (sub_split b 4 94 4 90 8), (sub_split b 8 90 36 54 44), (sub_split b 44 54 36 18 80)
      by reflexivity. reflexivity. }
  assert (Ls : forall i n, (i + n <= 98)%nat -> length (sub b i n) = n) by (intros; apply sub_length; lia).
  split.
  - intros E. unfold w_lock in E. rewrite Sb in E at 6.
    apply app_inj_len in E as [_ E]; [|reflexivity]. apply app_inj_len in E as [_ E]; [|reflexivity].
    apply app_inj_len in E as [E1 E]; [|rewrite w_string_length; [reflexivity|rewrite Ls; lia]].
    apply app_inj_len in E as [E2 E3]; [|rewrite w_string_length; [reflexivity|rewrite Ls; lia]].
    apply kept_text_iff in E1, E2; try (now apply bytes_ok_sub); try (rewrite Ls; lia).
    apply kept_card_iff in E3; [|apply Ls; lia].
    exists (sub b 0 4), (sub b 4 4), (sub b 8 36), (sub b 44 36), (sub b 80 18).
    repeat (split; [first [exact Sb|exact E1|exact E2|apply Ls; lia]|]). exact E3.
  - intros (ti & t2 & nm & ad & cd & Eb & L1 & L2 & L3 & L4 & K1 & K2 & K3).
    assert (L5 : length cd = 18%nat) by (rewrite Eb, !app_length in L; lia).
    apply kept_card_iff in K3; [|exact L5].
    assert (Bn : bytes_ok nm /\ bytes_ok ad) by (rewrite Eb, !bytes_ok_app in B; tauto).
    apply kept_text_iff in K1, K2; try tauto; try lia.
    rewrite Sb in Eb.
    apply app_inj_len in Eb as [A1 Eb]; [|rewrite Ls; lia]. apply app_inj_len in Eb as [A2 Eb]; [|rewrite Ls; lia].
    apply app_inj_len in Eb as [A3 Eb]; [|rewrite Ls; lia]. apply app_inj_len in Eb as [A4 A5]; [|rewrite Ls; lia].
    unfold w_lock. rewrite A3, A4, A5, K1, K2, K3, <- A3, <- A4, <- A5. symmetry. exact Sb.
Qed.

Lemma kept_control_iff b : length b = 31%nat -> (w_vu_control b = b <-> kept_control b).
Proof.
  intros L.
  assert (Sb : b = sub b 0 1 ++ sub b 1 4 ++ sub b 5 18 ++ sub b 23 4 ++ sub b 27 4).
  { rewrite <- (sub_whole b 31) at 1 by exact L.
    rewrite (sub_split b 0 31 1 30 1), (sub_split b 1 30 4 26 5), (sub_split b 5 26 18 8 23), (sub_split b 23 8 4 4 27)
      by reflexivity. reflexivity. }
  assert (Ls : forall i n, (i + n <= 31)%nat -> length (sub b i n) = n) by (intros; apply sub_length; lia).
  split.
  - intros E. unfold w_vu_control in E. rewrite Sb in E at 6.
    apply app_inj_len in E as [_ E]; [|reflexivity]. apply app_inj_len in E as [_ E]; [|reflexivity].
    apply app_inj_len in E as [E1 _]; [|rewrite w_fcn_length by (apply Ls; lia); symmetry; apply Ls; lia].
    apply kept_card_iff in E1; [|apply Ls; lia].
    exists (nth 0 b 0), (sub b 1 4), (sub b 5 18), (sub b 23 4), (sub b 27 4).
    rewrite <- sub_1 by lia.
    repeat (split; [first [exact Sb|apply Ls; lia]|]). exact E1.
  - intros (k & t & cd & t1 & t2 & Eb & L1 & L2 & L3 & K).
    assert (L5 : length cd = 18%nat) by (rewrite Eb, !app_length in L; cbn [length] in L; lia).
    apply kept_card_iff in K; [|exact L5].
    rewrite Sb in Eb.
    apply app_inj_len in Eb as [A1 Eb]; [|rewrite Ls; cbn [length]; lia].
    apply app_inj_len in Eb as [A2 Eb]; [|rewrite Ls; lia].
    apply app_inj_len in Eb as [A3 Eb]; [|rewrite Ls; lia].
    unfold w_vu_control. rewrite A3, K, <- A3. symmetry. exact Sb.
Qed.

Lemma concat_kept (w : bytes -> bytes) n bs :
  Forall (fun b => length (w b) = n) bs -> Forall (fun b => length b = n) bs ->
  (concat (map w bs) = concat bs <-> Forall (fun b => w b = b) bs).
Proof.
  intros F1 F2. induction bs as [|b bs IH]; [split; [constructor|reflexivity]|].
  apply Forall_cons_iff in F1 as [L1 F1], F2 as [L2 F2]. cbn [map concat]. rewrite Forall_cons_iff, <- IH by assumption.
  split.
  - apply app_inj_len. lia.
  - now intros [-> ->].
Qed.

Lemma w_slots_kept s : byte_ok s -> (w_slots s = s <-> s = 0).
Proof.
  intros B. assert (C : (w_slots s =? s) = (s =? 0)).
  { assert (Q : forallb (fun s => Bool.eqb (w_slots s =? s) (s =? 0)) (map Z.of_nat (seq 0 256)) = true)
      by (vm_compute; reflexivity).
    rewrite forallb_forall in Q. apply Bool.eqb_prop, Q. apply in_map_iff. exists (Z.to_nat s).
    unfold byte_ok in B. split; [lia|]. apply in_seq. lia. }
  rewrite <- !Z.eqb_eq, C. reflexivity.
Qed.

(** C81. Read and written back, an overview is the same exactly if each of its parts
    survives -- and a slot byte survives only if both slots are empty; it is refused
    exactly if the vehicle's nation is not one of the known ones. *)
Theorem C81_overview_partial :
  forall cm ms vc vin nation number now t_min t_max slots d_time d_card d_name locks controls
         signature x,
  length ms = 194%nat -> length vc = 194%nat -> length vin = 17%nat -> length number = 14%nat ->
  length now = 4%nat -> length t_min = 4%nat -> length t_max = 4%nat -> length d_time = 4%nat ->
  length d_card = 18%nat -> length d_name = 36%nat -> length signature = 128%nat ->
  Forall (fun b => length b = 98%nat) locks -> Forall (fun b => length b = 31%nat) controls ->
  let d := overview_bytes ms vc vin nation number now t_min t_max slots d_time d_card d_name
             locks controls signature in
  bytes_ok d -> unmarshal_overview_gen1 cm d = Ok x ->
  (append_overview_gen1 (Some x) = Ok d <->
     nation_known nation /\ known_text number /\ slots = 0 /\ kept_card d_card /\
     known_text d_name /\ Forall kept_lock locks /\ Forall kept_control controls) /\
  (append_overview_gen1 (Some x) = fail <-> ~ nation_known nation) /\
  (nation_known nation -> exists d', append_overview_gen1 (Some x) = Ok d' /\ length d' = length d).
Proof.
  intros cm ms vc vin na nu now tm tx sl dt dc dn ls cs sg x
    L1 L2 L3 L4 L5 L6 L7 L8 L9 L10 L11 FL FC d B H.
  unfold d in *. pose proof B as B'. unfold overview_bytes in B'. rewrite !bytes_ok_app in B'.
  destruct B' as (_ & _ & _ & (_ & Bnu) & _ & _ & Bsl & (_ & _ & Bdn) & _ & Bls & _ & _ & _).
  apply bytes_ok_cons in Bsl as [Bsl _].
  assert (FL' : Forall (fun b => length (w_lock b) = 98%nat) ls)
    by (revert FL; apply Forall_impl; intros b; apply w_lock_length).
  assert (FC' : Forall (fun b => length (w_vu_control b) = 31%nat) cs)
    by (revert FC; apply Forall_impl; intros b; apply w_vu_control_length).
  assert (KL : Forall (fun b => w_lock b = b) ls <-> Forall kept_lock ls).
  { clear - FL Bls. induction FL as [|b bs L FL IH]; [split; constructor|].
    cbn in Bls. apply bytes_ok_app in Bls as [Bb Bls].
    rewrite !Forall_cons_iff, kept_lock_iff, IH by assumption. reflexivity. }
  assert (KC : Forall (fun b => w_vu_control b = b) cs <-> Forall kept_control cs).
  { clear - FC. induction FC as [|b bs L FC IH]; [split; constructor|].
    rewrite !Forall_cons_iff, kept_control_iff, IH by assumption. reflexivity. }
  assert (CL : forall n bs, Forall (fun b : bytes => length b = n) bs -> length (concat bs) = (length bs * n)%nat).
  { intros n bs Q. induction Q as [|b bs L Q IH]; [reflexivity|]. cbn [concat length]. rewrite app_length, IH, L. lia. }
  assert (FM : forall w n (bs : list bytes), Forall (fun b => length (w b) = n) bs -> Forall (fun b : bytes => length b = n) (map w bs)).
  { intros w n bs Q. induction Q; constructor; assumption. }
  rewrite (overview_written _ _ _ _ _ _ _ _ _ _ _ _ _ _ _ _ _ L1 L2 L3 L4 L5 L6 L7 L8 L9 L10 L11 FL FC B H).
  rewrite <- (nation_knownb_iff na). rewrite <- kept_card_iff by exact L9.
  rewrite <- (kept_text_iff nu), <- (kept_text_iff dn) by (assumption || lia).
  rewrite <- KL, <- KC, <- (w_slots_kept sl Bsl), <- (concat_kept w_lock 98 ls FL' FL), <- (concat_kept w_vu_control 31 cs FC' FC).
  destruct (nation_knownb na) eqn:N; [|split; [|split]].
  - split; [|split].
    + split.
      * intros E. apply Ok_inj in E. unfold overview_bytes in E. rewrite !map_length in E.
        assert (M1 : length (w_string nu) = 14%nat) by (rewrite w_string_length; lia).
        assert (M2 : length (w_string dn) = 36%nat) by (rewrite w_string_length; lia).
        assert (M3 : length (w_fcn dc) = 18%nat) by (apply w_fcn_length; exact L9).
        apply app_inj_len in E as [_ E]; [|reflexivity].
        apply app_inj_len in E as [_ E]; [|reflexivity].
        apply app_inj_len in E as [_ E]; [|reflexivity].
        apply app_inj_len in E as [E1 E]; [|rewrite !app_length; cbn [length]; lia].
        apply app_inj_len in E as [_ E]; [|reflexivity].
        apply app_inj_len in E as [_ E]; [|reflexivity].
        apply app_inj_len in E as [E2 E]; [|reflexivity].
        apply app_inj_len in E as [E3 E]; [|rewrite !app_length; lia].
        apply app_inj_len in E as [_ E]; [|reflexivity].
        apply app_inj_len in E as [E4 E]; [|rewrite (CL 98%nat), (CL 98%nat ls FL), map_length by (now apply FM); reflexivity].
        apply app_inj_len in E as [_ E]; [|reflexivity].
        apply app_inj_len in E as [E5 _]; [|rewrite (CL 31%nat), (CL 31%nat cs FC), map_length by (now apply FM); reflexivity].
        apply app_inj_len in E1 as [_ E1]; [|reflexivity].
        apply app_inj_len in E3 as [_ E3]; [|reflexivity]. apply app_inj_len in E3 as [E3 E6]; [|lia].
        injection E2 as E2. auto 12.
      * intros (_ & -> & -> & -> & -> & E4 & E5). unfold overview_bytes. rewrite !map_length, E4, E5. reflexivity.
    + split; [discriminate|]. intros C. now destruct C.
    + intros _. eexists. split; [reflexivity|]. unfold overview_bytes. rewrite !app_length, !map_length.
      rewrite !w_string_length, w_fcn_length by (assumption || lia).
      rewrite (CL 98%nat ls FL), (CL 31%nat cs FC), (CL 98%nat (map w_lock ls)), (CL 31%nat (map w_vu_control cs)), !map_length
        by (now apply FM). cbn [length]. lia.
  - split; [discriminate|]. intros [C _]. discriminate C.
  - split; [discriminate|reflexivity].
  - discriminate.
Qed.

Lemma read_and_written d d' :
  (let* x := unmarshal_overview_gen1 (fun _ b => b) d in append_overview_gen1 (Some x)) = Ok d' ->
  exists x, unmarshal_overview_gen1 (fun _ b => b) d = Ok x /\ append_overview_gen1 (Some x) = Ok d'.
Proof. intros E. apply bind_ok in E. exact E. Qed.

(** The full statement "what was read is written back unchanged" is false: the
    overview of a vehicle with a card in a slot comes back with a different slot
    byte. *)
Theorem C81_overview_refuted :
  exists x d', unmarshal_overview_gen1 (fun _ b => b) (demo_overview 2) = Ok x /\
    append_overview_gen1 (Some x) = Ok d' /\ nth 432 (demo_overview 2) 0 = 17 /\ nth 432 d' 0 = 0.
Proof.
  destruct (read_and_written (demo_overview 2) (set_byte (demo_overview 2) 432 0)) as (x & E1 & E2).
  - vm_compute. reflexivity.
  - exists x. eexists. split; [exact E1|]. split; [exact E2|]. split; vm_compute; reflexivity.
Qed.

(** Nothing is lost of a vehicle whose slots are empty and whose cards are a
    company's and a workshop's. *)
Definition kept_overview : bytes :=
  overview_bytes (repeat 1 194) (repeat 2 194) (repeat 87 17) 13 sample_number sample_time
    sample_time sample_time 0 sample_time (demo_card 4) sample_name
    [sample_time ++ sample_time ++ sample_name ++ sample_name ++ demo_card 4]
    [[128] ++ sample_time ++ demo_card 2 ++ sample_time ++ sample_time] (repeat 3 128).

Example C81_overview_applies :
  exists x, unmarshal_overview_gen1 (fun _ b => b) kept_overview = Ok x /\
    append_overview_gen1 (Some x) = Ok kept_overview.
Proof.
  apply read_and_written. vm_compute. reflexivity.
Qed.
