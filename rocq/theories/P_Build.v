(** Values written and read back: lemmas for C89.  The other direction of the
    codecs - bytes read and written back - is in P_Basic.v to P_Records.v. *)

From Verif Require Import Base Enums DDScalar Chunks Utf8 DDString DDRecord CardBasic CardIdent CardRecords.
From Verif Require Import P_Utf8 P_Scalar Props_Scalar P_Basic P_String Props_String Field P_Record P_Records.
From Verif Require Import Anonymize P_Anonymize P_Ident Props_Ident Props_Edit Props_Layout.

(** [x] is written as [n] bytes which are read as the same value; [plain] forgets
    the preserved bytes. *)
Definition survives {X} (ap : X -> res bytes) (un : bytes -> res X) (plain : X -> X) (n : nat) (x : X) : Prop :=
  exists b y, ap x = Ok b /\ length b = n /\ un b = Ok y /\ plain y = plain x.

Lemma survives_intro {X} ap un (plain : X -> X) n x b :
  ap x = Ok b -> length b = n -> (exists y, un b = Ok y /\ plain y = plain x) -> survives ap un plain n x.
Proof. intros A L (y & U & P). exists b, y. auto. Qed.

(** ** Taking a concatenation apart *)

Lemma sub_at (a b : bytes) i n k : length a = k -> (k <= i)%nat -> sub (a ++ b) i n = sub b (i - k) n.
Proof. intros <- H. unfold sub. rewrite skipn_app, skipn_all2 by lia. reflexivity. Qed.

Lemma sub_head (a b : bytes) n : length a = n -> sub (a ++ b) 0 n = a.
Proof. intros H. unfold sub. cbn [skipn]. now apply Field.firstn_app_exact. Qed.

Lemma sub_whole (a : bytes) n : length a = n -> sub a 0 n = a.
Proof. intros <-. unfold sub. cbn [skipn]. apply firstn_all. Qed.

Lemma nth_at (a b : bytes) i k : length a = k -> (k <= i)%nat -> nth i (a ++ b) 0 = nth (i - k) b 0.
Proof. intros <- H. now apply app_nth2. Qed.

Lemma nth_one (c : Z) b : nth 0 ([c] ++ b) 0 = c.
Proof. reflexivity. Qed.

(** Rewrites [sub] and [nth] of a concatenation of pieces whose lengths are
    hypotheses (or which are explicit). *)
Ltac length_of a :=
  match goal with
  | H : length a = ?k |- _ => k
  | _ => let n := eval cbn [length] in (length a) in n
  end.

Ltac pick :=
  repeat match goal with
  | |- context [sub (?a ++ ?b) 0 ?n] =>
      let k := length_of a in constr_eq k n; rewrite (sub_head a b n) by (assumption || reflexivity)
  | |- context [sub ?a 0 ?n] =>
      let k := length_of a in constr_eq k n; rewrite (sub_whole a n) by (assumption || reflexivity)
  | |- context [sub (?a ++ ?b) ?i ?n] =>
      let k := length_of a in
      rewrite (sub_at a b i n k) by first [assumption|reflexivity|lia]; cbn [Nat.sub]
  | |- context [nth 0 ([?c] ++ ?b) 0] => rewrite (nth_one c b)
  | |- context [nth ?i (?a ++ ?b) 0] =>
      let k := length_of a in
      rewrite (nth_at a b i k) by first [assumption|reflexivity|lia]; cbn [Nat.sub]
  end.

(** ** Numbers *)

Lemma u8_small v : 0 <= v < 256 -> u8 v = v.
Proof. intros H. unfold u8. now apply Z.mod_small. Qed.

Lemma u16_small v : 0 <= v < 65536 -> u16 v = v.
Proof. intros H. unfold u16. now apply Z.mod_small. Qed.

Lemma pointer_back v : 0 <= v < 65536 -> be (to_be 2 (u16 v)) = v.
Proof. intros H. rewrite u16_small by auto. rewrite be_to_be. now apply Z.mod_small. Qed.

Lemma be4_back v : 0 <= v < 4294967296 -> be (to_be 4 v) = v.
Proof. intros H. rewrite be_to_be. now apply Z.mod_small. Qed.

Lemma bcd2_sweep : forallb (fun v => (bcd2 v / 16 * 10 + bcd2 v mod 16 =? v) && (bcd2 v <? 256) && (0 <=? bcd2 v)) (zrange 100) = true.
Proof. vm_compute. reflexivity. Qed.

Lemma bcd2_back v : 0 <= v < 100 -> bcd2 v / 16 * 10 + bcd2 v mod 16 = v.
Proof.
  intros H. pose proof (sweep _ 100 bcd2_sweep v H) as E. cbv beta in E. lia.
Qed.

Lemma len2 (l : bytes) : length l = 2%nat -> exists a b, l = [a; b].
Proof. intros H. destruct l as [|a [|b [|]]]; try discriminate H. eauto. Qed.

(** ** Enumerations *)

(** A value with a wire code. *)
Definition coded (T : enum_table) (v : Z) : Prop := exists c, In (v, Some c) T.

(** A value with a wire code, or the marker for unrecognized ones together with a
    byte that is no code. *)
Definition coded_or_kept (T : enum_table) (v : Z) (u : option Z) : Prop :=
  (coded T v /\ u = None) \/
  (v = ENUM_UNRECOGNIZED /\ exists b, u = Some b /\ byte_ok b /\ ~ exists w, In (w, Some b) T).

Lemma coded_code T v : In T all_enum_tables -> coded T v ->
  exists c, marshal_enum T v = Ok c /\ unmarshal_enum T c = Ok v.
Proof.
  intros I (c & H). exists c. split; [apply marshal_enum_iff|apply unmarshal_enum_iff]; auto using enum_wf.
Qed.

Lemma uncoded_byte T b : In T all_enum_tables -> ~ (exists w, In (w, Some b) T) ->
  exists e, unmarshal_enum T b = Err e.
Proof. intros I N. now apply (proj1 (proj2 (proj2 (C26_enum_correspondence T I)))). Qed.

Lemma place_enum_kept T v u : In T all_enum_tables -> coded_proper T = true -> coded_or_kept T v u ->
  unmarshal_enum_or_unrecognized T (place_enum_byte T v u) = (v, u).
Proof.
  intros I C [[(c & H) ->]|(-> & b & -> & B & N)].
  - rewrite (place_enum_known T v None c) by auto. unfold unmarshal_enum_or_unrecognized.
    assert (E : unmarshal_enum T c = Ok v) by (apply unmarshal_enum_iff; auto using enum_wf).
    now rewrite E.
  - unfold place_enum_byte. rewrite Z.eqb_refl. cbn [odflt]. rewrite u8_small by exact B.
    unfold unmarshal_enum_or_unrecognized. destruct (uncoded_byte T b I N) as (e & ->). reflexivity.
Qed.

Lemma in_nation : In nation_numeric_table all_enum_tables.
Proof. now repeat (try (left; reflexivity); right). Qed.
Lemma in_equipment : In equipment_type_table all_enum_tables.
Proof. now repeat (try (left; reflexivity); right). Qed.
Lemma in_entry : In entry_type_daily_work_period_table all_enum_tables.
Proof. now repeat (try (left; reflexivity); right). Qed.
Lemma in_clock : In clock_stop_mode_table all_enum_tables.
Proof. now repeat (try (left; reflexivity); right). Qed.
Lemma in_event : In event_fault_type_table all_enum_tables.
Proof. now repeat (try (left; reflexivity); right). Qed.
Lemma in_condition : In specific_condition_type_table all_enum_tables.
Proof. now repeat (try (left; reflexivity); right). Qed.

(** ** Times *)

Lemma time_survives o : writable_time o ->
  exists b, append_time o = Ok b /\ length b = 4%nat /\ unmarshal_time b = Ok o /\
    (o <> None -> be b <> 0).
Proof.
  intros W. assert (E : exists b, append_time o = Ok b).
  { unfold append_time. destruct o as [[s n]|]; cbn [writable_time ts_seconds ts_nanos] in W.
    - destruct W as [_ ->]. cbn. eauto.
    - cbn. eauto. }
  destruct E as (b & E). exists b. split; [exact E|]. pose proof (append_time_len _ _ E) as L.
  pose proof (writable_time_back _ _ W E) as U. repeat split; auto.
  intros N Z0. unfold unmarshal_time in U. rewrite L, Z0 in U. cbn in U. apply Ok_inj in U. now symmetry in U.
Qed.

(** ** Text *)

(** Printable ASCII that neither begins nor ends with a space. *)
Definition tidy_ascii (s : bytes) : Prop :=
  Forall (fun b => 32 <= b < 127) s /\ (s = [] \/ (hd 0 s <> 32 /\ last s 0 <> 32)).

(** The character maps agree with ASCII (all of golang.org/x/text's do). *)
Definition ascii_charmaps (cm : Z -> Z -> Z) : Prop := forall cp b, 32 <= b < 127 -> cm cp b = b.

(** Text of at most [n] bytes: built without raw data, or as it came from the
    parser. *)
Inductive text_ok (cm : Z -> Z -> Z) (n : nat) : option string_value -> Prop :=
| text_built e v : 2 <= e <= 14 -> e <> 3 -> tidy_ascii v -> (length v <= n)%nat ->
    text_ok cm n (Some (mkSV None e (Some (Z.of_nat n)) v))
| text_empty : text_ok cm n (Some (mkSV None 3 (Some (Z.of_nat n)) []))
| text_read d s : length d = S n -> legal_code_page (nth 0 d 0) -> unmarshal_string_value cm d = Ok s ->
    text_ok cm n (Some s).

Definition plain_text (s : string_value) : string_value :=
  mkSV None (sv_encoding s) (sv_length s) (sv_value s).

Lemma ascii_decode cm cp s : ascii_charmaps cm -> Forall (fun b => 32 <= b < 127) s ->
  concat (map (fun b => encode_rune (charmap_rune cm cp b)) s) = s.
Proof.
  intros A H. induction H as [|b s Hb H IH]; [reflexivity|]. cbn [map concat]. rewrite IH.
  assert (C : charmap_rune cm cp b = b).
  { unfold charmap_rune. repeat (match goal with |- context [match ?x with _ => _ end] => destruct x end;
      try reflexivity; try (now apply A)). }
  rewrite C. unfold encode_rune, scalarb.
  destruct (Z.leb_spec 0 b); [|lia]. destruct (Z.ltb_spec b 55296); [|lia]. cbn [andb orb].
  destruct (Z.ltb_spec b 128); [reflexivity|lia].
Qed.

Lemma tidy_clean s : tidy_ascii s -> clean_text s.
Proof.
  intros [H E]. apply ascii_clean.
  - eapply Forall_impl; [|exact H]. cbv beta. intros; lia.
  - destruct E as [->|[E1 E2]]; [now left|]. destruct s as [|b s]; [now left|]. right.
    assert (P : forall x, In x (b :: s) -> x <> 32 -> ~ blank x).
    { intros x I N. rewrite Forall_forall in H. specialize (H x I). cbv beta in H. unfold blank. cbn [In]. lia. }
    split; apply P; auto; [now left|]. rewrite (app_removelast_last 0 (l := b :: s)) at 2 by discriminate.
    apply in_or_app. right. now left.
Qed.

Lemma tidy_decode cm cp s k :
  ascii_charmaps cm -> cp <> 255 -> tidy_ascii s -> s ++ repeat 32 k <> [] ->
  decode_with_code_page cm cp (s ++ repeat 32 k) = s.
Proof.
  intros A N T Ne. unfold decode_with_code_page. destruct (Z.eqb_spec cp 255); [contradiction|].
  assert (P : Forall (fun b => 32 <= b < 127) (s ++ repeat 32 k)).
  { apply Forall_app. split; [apply T|]. apply Forall_forall. intros x I. apply repeat_spec in I. lia. }
  assert (X : existsb (fun b => (0 <? b) && (b <? 255)) (s ++ repeat 32 k) = true).
  { destruct (s ++ repeat 32 k) as [|b t]; [congruence|]. cbn [existsb]. inversion P; subst.
    destruct (Z.ltb_spec 0 b); [|lia]. destruct (Z.ltb_spec b 255); [reflexivity|lia]. }
  rewrite X. cbn [negb]. rewrite ascii_decode by auto. apply clean_padded. now apply tidy_clean.
Qed.

Lemma blank_page cm k data : data = repeat 32 k -> decode_with_code_page cm 255 data = [].
Proof. reflexivity. Qed.

Lemma text_survives cm n o : ascii_charmaps cm -> (1 <= n)%nat -> text_ok cm n o ->
  exists b y x, o = Some x /\ append_string_value o = Ok b /\ length b = S n /\
    unmarshal_string_value cm b = Ok y /\ plain_text y = plain_text x.
Proof.
  intros A N T. destruct T as [e v E E3 T L| |d s L K U].
  - destruct (C28_string_build e (Z.of_nat n) v) as [B _]; try lia.
    destruct (B ltac:(lia)) as (cp & k & Ea & Lp & Np & Lk). do 3 eexists.
    split; [reflexivity|]. split; [exact Ea|].
    assert (Ld : length (v ++ repeat 32 k) = n) by (rewrite app_length, repeat_length; lia).
    split; [cbn [length]; lia|].
    assert (Ec : encoding_of_code_page cp = e).
    { unfold append_string_value in Ea. cbn [sv_raw sv_length sv_encoding sv_value odflt bind length Nat.ltb Nat.leb] in Ea.
      destruct (_ >? _) in Ea; [discriminate|]. apply Ok_inj in Ea. apply (f_equal (hd 0)) in Ea. cbn [hd] in Ea. subst cp.
      assert (D : e = 2 \/ e = 4 \/ e = 5 \/ e = 6 \/ e = 7 \/ e = 8 \/ e = 9 \/
        e = 10 \/ e = 11 \/ e = 12 \/ e = 13 \/ e = 14) by lia.
      repeat (destruct D as [->|D]; [reflexivity|]). now subst. }
    unfold unmarshal_string_value. cbn [length nth skipn]. rewrite Ld.
    destruct (Nat.ltb_spec (S n) 2); [lia|]. split; [reflexivity|].
    unfold plain_text. cbn [sv_encoding sv_length sv_value]. rewrite Ec. f_equal.
    apply tidy_decode; auto. intros Q. rewrite Q in Ld. cbn in Ld. lia.
  - do 3 eexists. split; [reflexivity|].
    unfold append_string_value. cbn [sv_raw sv_length sv_encoding sv_value odflt bind length Nat.ltb Nat.leb].
    change (code_page_of_encoding 3) with 255. unfold encode_with_code_page. rewrite Z.eqb_refl. cbn [length].
    rewrite Z.gtb_ltb. destruct (Z.ltb_spec (Z.of_nat n) (Z.of_nat 0)); [lia|]. rewrite Nat2Z.id.
    split; [reflexivity|]. unfold pad_spaces. cbn [List.app length]. rewrite repeat_length, Nat.sub_0_r.
    split; [reflexivity|]. unfold unmarshal_string_value. cbn [length nth skipn].
    rewrite repeat_length. destruct (Nat.ltb_spec (S n) 2); [lia|]. split; reflexivity.
  - exists d, s, s. split; [reflexivity|]. split; [|auto].
    apply (string_round_trip cm); auto. now apply legal_known.
Qed.

(** IA5 text of exactly [n] bytes on the wire. *)
Inductive ia5_ok (n : nat) : option ia5 -> Prop :=
| ia5_built v : clean_utf8 v -> (length v <= n)%nat -> ia5_ok n (Some (mkIA5 None (Some (Z.of_nat n)) v))
| ia5_read d s : length d = n -> unmarshal_ia5 d = Ok s -> ia5_ok n (Some s).

Definition plain_ia5 (s : ia5) : ia5 := mkIA5 None (ia5_length s) (ia5_value s).

Lemma clean_utf8_text l : clean_utf8 l -> clean_text l.
Proof.
  intros (rs & H & -> & A & B). exists rs.
  split; [eapply Forall_impl; [|exact H]; unfold scalar; cbv beta; lia|]. split; [reflexivity|].
  destruct rs as [|r rs]; [now left|]. right.
  assert (K : forall r, ~ padding_rune r -> in_cutset r = false).
  { intros x Nx. unfold in_cutset, rune_error. cbn [existsb]. unfold padding_rune in Nx. lia. }
  split; apply K; [now apply (A r rs)|].
  apply (B _ (removelast (r :: rs))). now apply app_removelast_last.
Qed.

Lemma ia5_survives n o : (1 <= n)%nat -> ia5_ok n o ->
  exists b y x, o = Some x /\ append_ia5 o = Ok b /\ length b = n /\
    unmarshal_ia5 b = Ok y /\ plain_ia5 y = plain_ia5 x.
Proof.
  intros N T. destruct T as [v C L|d s L U].
  - do 3 eexists. split; [reflexivity|]. unfold append_ia5. cbn [ia5_length ia5_raw ia5_value].
    rewrite Z.gtb_ltb. destruct (Z.ltb_spec (Z.of_nat n) (Z.of_nat (length v))); [lia|]. rewrite Nat2Z.id.
    split; [reflexivity|].
    assert (Ld : length (pad_spaces n v) = n) by (unfold pad_spaces; rewrite app_length, repeat_length; lia).
    split; [exact Ld|]. rewrite unmarshal_ia5_ok by lia. split; [reflexivity|].
    unfold plain_ia5. cbn [ia5_length ia5_value]. rewrite Ld. f_equal.
    unfold pad_spaces. apply clean_padded. now apply clean_utf8_text.
  - exists d, s, s. split; [reflexivity|]. split; [now apply ia5_round_trip|auto].
Qed.

(** ** Registrations *)

Definition plain_vreg (v : vreg) : vreg := mkVR (vr_nation v) (option_map plain_text (vr_number v)).

Definition vreg_ok (cm : Z -> Z -> Z) (o : option vreg) : Prop :=
  exists v, o = Some v /\ coded nation_numeric_table (vr_nation v) /\ text_ok cm 13 (vr_number v).

Lemma coded_not_unrecognized T v : In T all_enum_tables -> coded_proper T = true -> coded T v ->
  v <> ENUM_UNRECOGNIZED.
Proof.
  intros I C (c & H). assert (E : unmarshal_enum T c = Ok v) by (apply unmarshal_enum_iff; auto using enum_wf).
  now destruct (unmarshal_enum_coded T c v C E).
Qed.

Lemma vreg_survives cm o : ascii_charmaps cm -> vreg_ok cm o ->
  exists b y x, o = Some x /\ append_vreg o = Ok b /\ length b = 15%nat /\
    unmarshal_vreg cm b = Ok y /\ plain_vreg y = plain_vreg x.
Proof.
  intros A (v & -> & K & T).
  destruct (coded_code _ _ in_nation K) as (c & Mc & Uc).
  pose proof (coded_not_unrecognized nation_numeric_table (vr_nation v) in_nation eq_refl K) as N.
  destruct (text_survives cm 13 _ A ltac:(lia) T) as (b & y & x & Ex & Ea & Lb & Uy & P).
  exists (c :: b), (mkVR (vr_nation v) (Some y)), v. split; [reflexivity|].
  unfold append_vreg. destruct (Z.eqb_spec (vr_nation v) ENUM_UNRECOGNIZED); [contradiction|].
  rewrite Mc. cbn [bind]. rewrite Ex in *. rewrite Ea. cbn [bind]. split; [reflexivity|].
  split; [cbn [length]; lia|]. unfold unmarshal_vreg. cbn [length]. rewrite Lb. cbn [Nat.eqb guard bind nth].
  rewrite Uc. change (sub (c :: b) 1 14) with (sub b 0 14). rewrite sub_whole by exact Lb. rewrite Uy. cbn [bind].
  split; [reflexivity|]. unfold plain_vreg. cbn [vr_nation vr_number]. rewrite Ex. cbn [option_map]. now rewrite P.
Qed.

(** ** Dates *)

Definition date_ok (o : option date) : Prop :=
  exists d, o = Some d /\ 0 <= date_year d < 10000 /\ 0 <= date_month d < 100 /\ 0 <= date_day d < 100 /\
    (date_raw d = None \/ exists r, date_raw d = Some r /\ length r = 4%nat).

Definition plain_date (d : date) : date := mkDate None (date_year d) (date_month d) (date_day d).

Lemma digits_sweep : forallb (fun v => let d := date_digits (v / 10) (v mod 10) in
  (d / 16 =? v / 10) && (d mod 16 =? v mod 10)) (zrange 100) = true.
Proof. vm_compute. reflexivity. Qed.

Lemma date_digits_back x y : 0 <= x -> 0 <= y ->
  date_digits x y / 16 = x mod 10 /\ date_digits x y mod 16 = y mod 10.
Proof.
  intros X Y. set (v := 10 * (x mod 10) + y mod 10).
  pose proof (Z.mod_pos_bound x 10 ltac:(lia)). pose proof (Z.mod_pos_bound y 10 ltac:(lia)).
  assert (V : 0 <= v < 100) by (unfold v; lia).
  pose proof (sweep _ 100 digits_sweep v V) as E. cbv beta zeta in E.
  assert (D1 : v / 10 = x mod 10) by (unfold v; rewrite Z.mul_comm, Z.div_add_l by lia; rewrite (Z.div_small (y mod 10)) by lia; lia).
  assert (D2 : v mod 10 = y mod 10) by (unfold v; rewrite Z.mul_comm, Z.add_comm, Z.mod_add by lia; now rewrite Z.mod_mod by lia).
  rewrite D1, D2 in E.
  assert (Q : date_digits (x mod 10) (y mod 10) = date_digits x y).
  { unfold date_digits. rewrite !Z.rem_mod_nonneg by lia. now rewrite !Z.mod_mod by lia. }
  rewrite Q in E. lia.
Qed.

Lemma date_survives o : date_ok o ->
  exists b y x, o = Some x /\ append_date o = Ok b /\ length b = 4%nat /\
    unmarshal_date b = Ok y /\ plain_date y = plain_date x.
Proof.
  intros ([r y m d] & -> & Y & M & D & R). cbn [date_year date_month date_day date_raw] in *.
  unfold append_date. cbn [odflt date_year date_month date_day date_raw].
  assert (C : exists c, raw_canvas 4 r = Ok c /\ length c = 4%nat).
  { destruct R as [->|(q & -> & Lq)]; cbn [raw_canvas]; [eexists; split; reflexivity|].
    rewrite Lq. exists q. auto. }
  destruct C as (c & -> & Lc). cbn [bind]. destruct (len4 _ Lc) as (c0 & c1 & c2 & c3 & ->).
  change (set_byte (set_byte (set_byte (set_byte [c0; c1; c2; c3] 0 ?p) 1 ?q) 2 ?s) 3 ?t) with [p; q; s; t].
  do 3 eexists. split; [reflexivity|]. split; [reflexivity|]. split; [reflexivity|].
  split; [unfold unmarshal_date; cbn [length Nat.eqb guard bind nth]; reflexivity|].
  unfold plain_date. cbn [date_year date_month date_day]. rewrite !Z.quot_div_nonneg by lia.
  destruct (date_digits_back (y / 1000) (y / 100)) as [-> ->]; try (apply Z.div_pos; lia).
  destruct (date_digits_back (y / 10) y) as [-> ->]; try (apply Z.div_pos; lia); try lia.
  destruct (date_digits_back (m / 10) m) as [-> ->]; try (apply Z.div_pos; lia); try lia.
  destruct (date_digits_back (d / 10) d) as [-> ->]; try (apply Z.div_pos; lia); try lia.
  f_equal; Z.to_euclidean_division_equations; lia.
Qed.

(** A month and year of manufacture, or neither. *)
Definition month_year_ok (o : option month_year) : Prop :=
  exists m, o = Some m /\ (length (my_raw m) = 0 \/ length (my_raw m) = 2)%nat /\
    ((1 <= my_month m <= 12 /\ 2000 <= my_year m < 2100) \/ (my_month m = 0 /\ my_year m = 0)).

Definition plain_month_year (m : month_year) : month_year := mkMY [] (my_month m) (my_year m).

Definition my_byte0 (m : Z) : Z := u8 (Z.lor (Z.quot m 10 * 16) (Z.rem m 10)).

Lemma month_year_sweep : forallb (fun m => forallb (fun y =>
    match unmarshal_month_year [my_byte0 m; my_byte0 y] with
    | Ok r => (my_month r =? m) && (my_year r =? 2000 + y)
    | _ => false end) (zrange 100)) (map (fun i => i + 1) (zrange 12)) = true.
Proof. vm_compute. reflexivity. Qed.

Lemma month_year_survives o : month_year_ok o ->
  exists b y x, o = Some x /\ append_month_year o = Ok b /\ length b = 2%nat /\
    unmarshal_month_year b = Ok y /\ plain_month_year y = plain_month_year x.
Proof.
  intros ([r m y] & -> & R & K). cbn [my_raw my_month my_year] in *.
  unfold append_month_year. cbn [odflt my_raw my_month my_year].
  assert (C : exists c, (if (0 <? length r)%nat then raw_canvas 2 (Some r) else Ok (zeros 2)) = Ok c /\ length c = 2%nat).
  { destruct R as [Lr|Lr]; rewrite Lr; cbn [Nat.ltb Nat.leb raw_canvas]; [eexists; split; reflexivity|].
    rewrite Lr. exists r. auto. }
  destruct C as (c & -> & Lc). cbn [bind]. destruct (len2 _ Lc) as (c0 & c1 & ->).
  change (set_byte (set_byte [c0; c1] 0 ?a) 1 ?b) with [a; b].
  destruct K as [[M Y]|[-> ->]].
  - assert (E : Z.rem y 100 = y - 2000) by (rewrite Z.rem_mod_nonneg by lia; Z.to_euclidean_division_equations; lia).
    rewrite E.
    assert (S1 : exists r', unmarshal_month_year [my_byte0 m; my_byte0 (y - 2000)] = Ok r' /\ my_month r' = m /\ my_year r' = y).
    { pose proof month_year_sweep as F1. rewrite forallb_forall in F1.
      specialize (F1 m). cbv beta in F1. rewrite in_map_iff in F1.
      specialize (F1 (ex_intro _ (m - 1) (conj (Z.sub_add 1 m) (zrange_in 12 (m - 1) ltac:(lia))))).
      pose proof (sweep _ 100 F1 (y - 2000) ltac:(lia)) as F2. cbv beta in F2.
      destruct (unmarshal_month_year _) as [r'| |]; try discriminate. exists r'. split; [reflexivity|]. lia. }
    destruct S1 as (r' & U & Em & Ey). do 3 eexists. split; [reflexivity|].
    split; [reflexivity|]. split; [reflexivity|]. split; [exact U|].
    unfold plain_month_year. cbn [my_month my_year]. now rewrite Em, Ey.
  - do 3 eexists. split; [reflexivity|]. split; [reflexivity|]. split; [reflexivity|]. split; reflexivity.
Qed.

(** Structure versions. *)
Definition csv_ok (o : option csv) : Prop :=
  exists v, o = Some v /\ 0 <= csv_major v < 100 /\ 0 <= csv_minor v < 100 /\
    (csv_raw v = None \/ exists r, csv_raw v = Some r /\ length r = 2%nat).

Definition plain_csv (v : csv) : csv := mkCsv None (csv_major v) (csv_minor v).

Lemma csv_survives o : csv_ok o ->
  exists b y x, o = Some x /\ append_csv o = Ok b /\ length b = 2%nat /\
    unmarshal_csv b = Ok y /\ plain_csv y = plain_csv x.
Proof.
  intros ([r m n] & -> & M & N & R). cbn [csv_raw csv_major csv_minor] in *.
  unfold append_csv. cbn [odflt csv_raw csv_major csv_minor].
  assert (C : exists c, raw_canvas 2 r = Ok c /\ length c = 2%nat).
  { destruct R as [->|(q & -> & Lq)]; cbn [raw_canvas]; [eexists; split; reflexivity|].
    rewrite Lq. exists q. auto. }
  destruct C as (c & -> & Lc). cbn [bind]. destruct (len2 _ Lc) as (c0 & c1 & ->).
  change (set_byte (set_byte [c0; c1] 0 (bcd2 m)) 1 (bcd2 n)) with [bcd2 m; bcd2 n].
  do 3 eexists. split; [reflexivity|]. split; [reflexivity|]. split; [reflexivity|].
  split; [unfold unmarshal_csv; cbn [length Nat.eqb guard bind nth]; reflexivity|].
  unfold plain_csv. cbn [csv_major csv_minor]. now rewrite !bcd2_back.
Qed.

(** Counters. *)
Lemma bcd_survives v : 0 <= v < 10000 ->
  exists b, append_bcd_string (Some (mkBcd v 2)) = Ok b /\ length b = 2%nat /\
    unmarshal_bcd_string b = Ok (mkBcd v 2).
Proof.
  intros H. assert (E : exists b, append_bcd_string (Some (mkBcd v 2)) = Ok b).
  { unfold append_bcd_string. cbn [bcd_value bcd_length]. destruct (Z.ltb_spec v 0); [lia|].
    change (2 <=? 0) with false. cbv iota. change (Z.to_nat 2) with 2%nat.
    destruct (C23_bcd_encode 2 ltac:(lia)) as (_ & A & _). apply (A v). exact H. }
  destruct E as (b & E). exists b. destruct (bcd_pair_back (mkBcd v 2) b eq_refl E). auto.
Qed.

(** Positions. *)
Definition geo_ok (o : option geo) : Prop :=
  exists g, o = Some g /\ -8388608 <= geo_latitude g < 8388608 /\ -8388608 <= geo_longitude g < 8388608.

Lemma geo_survives o : geo_ok o ->
  length (append_geo o) = 6%nat /\ exists x, o = Some x /\ unmarshal_geo (append_geo o) = Ok x.
Proof.
  intros ([la lo] & -> & A & B). cbn [geo_latitude geo_longitude] in *.
  split; [reflexivity|]. exists (mkGeo la lo). split; [reflexivity|].
  now apply C27_geo_round_trip.
Qed.

Definition gnss_ok (o : option gnss_place) : Prop :=
  exists g, o = Some g /\ writable_time (gp_time g) /\ 0 <= gp_accuracy g < 256 /\ geo_ok (gp_geo g).

Lemma gnss_survives o : gnss_ok o ->
  exists b x, o = Some x /\ append_gnss_place o = Ok b /\ length b = 11%nat /\ unmarshal_gnss_place b = Ok x.
Proof.
  intros ([t a g] & -> & Wt & Ha & Hg). cbn [gp_time gp_accuracy gp_geo] in *.
  destruct (time_survives t Wt) as (bt & Et & Lt & Ut & _).
  destruct (geo_survives g Hg) as (Lg & q & -> & Ug).
  unfold append_gnss_place. cbn [gp_time gp_accuracy gp_geo]. rewrite Et. cbn [bind].
  assert (G : negb ((a <? 0) || (a >? 255)) = true) by lia. rewrite G. cbn [guard bind].
  do 2 eexists. split; [reflexivity|]. split; [reflexivity|].
  split; [rewrite !app_length, Lt, Lg; reflexivity|].
  unfold unmarshal_gnss_place. rewrite !app_length, Lt, Lg. cbn [length Nat.add Nat.eqb guard bind].
  rewrite u8_small by auto. pick. rewrite Ut. cbn [bind].
  change ((bt ++ [a] ++ append_geo (Some q))) with (bt ++ [a] ++ append_geo (Some q)).
  rewrite Ug. reflexivity.
Qed.

(** ** Records *)

Lemma odometer_read v : 0 <= v < 16777216 -> be (append_odometer v) = v.
Proof. apply odometer_value. Qed.

Definition raw_ok (n : nat) (raw : bytes) : Prop := (length raw = 0 \/ length raw = n)%nat.

Definition place_ok (p : place) : Prop :=
  raw_ok 10 (pl_raw p) /\ writable_time (pl_time p) /\
  coded_or_kept entry_type_daily_work_period_table (pl_entry p) (pl_entry_unrecognized p) /\
  coded_or_kept nation_numeric_table (pl_country p) (pl_country_unrecognized p) /\
  (exists r, pl_region p = [r]) /\ 0 <= pl_odometer p < 16777216.

Definition plain_place (p : place) : place :=
  mkPlace [] (pl_time p) (pl_entry p) (pl_entry_unrecognized p) (pl_country p) (pl_country_unrecognized p)
    (pl_region p) (pl_odometer p).

Lemma canvas_raw_ok n raw : raw_ok n raw -> exists c, raw_canvas_nonempty n raw = Ok c /\ length c = n.
Proof.
  intros R. assert (C : exists c, raw_canvas_nonempty n raw = Ok c).
  { unfold raw_canvas_nonempty. destruct R as [L|L]; rewrite L; [eexists; reflexivity|].
    destruct (0 <? n)%nat; [|eauto]. unfold raw_canvas. rewrite L, Nat.eqb_refl. exists raw. reflexivity. }
  destruct C as (c & C). exists c. split; [exact C|]. now apply raw_canvas_nonempty_len in C.
Qed.

(** Painting the fields one after the other over the whole canvas leaves their
    concatenation. *)
Lemma paint_first c j (s : bytes) : length s = j -> (j <= length c)%nat -> copy_into c 0 j s = s ++ skipn j c.
Proof. intros L H. rewrite copy_into_eq by lia. reflexivity. Qed.

Lemma paint_next (A rest : bytes) i j s :
  length A = i -> (i <= j)%nat -> length s = (j - i)%nat -> (j - i <= length rest)%nat ->
  copy_into (A ++ rest) i j s = (A ++ s) ++ skipn (j - i) rest.
Proof.
  intros <- I L H. rewrite copy_into_eq by (rewrite ?app_length; lia).
  rewrite Field.firstn_app_exact by reflexivity. rewrite skipn_app, skipn_all2 by lia.
  cbn [List.app]. now rewrite app_assoc.
Qed.

Lemma place_written p t r : raw_ok 10 (pl_raw p) -> append_time (pl_time p) = Ok t -> pl_region p = [r] ->
  append_place p =
  Ok (t ++ [place_enum_byte entry_type_daily_work_period_table (pl_entry p) (pl_entry_unrecognized p);
            place_enum_byte nation_numeric_table (pl_country p) (pl_country_unrecognized p); r] ++
      append_odometer (pl_odometer p)).
Proof.
  intros R Et Er. unfold append_place. destruct (canvas_raw_ok _ _ R) as (c & -> & Lc). cbn [bind].
  rewrite Et, Er. cbn [bind]. pose proof (append_time_len _ _ Et) as Lt.
  destruct (len10 _ Lc) as (? & ? & ? & ? & ? & ? & ? & ? & ? & ? & ->).
  destruct (len4 _ Lt) as (? & ? & ? & ? & ->).
  destruct (len3 _ (odometer_len (pl_odometer p))) as (? & ? & ? & ->). reflexivity.
Qed.

Lemma place_survives p : place_ok p -> survives append_place unmarshal_place plain_place 10 p.
Proof.
  intros (R & Wt & Ke & Kc & (r & Er) & Ho).
  destruct (time_survives _ Wt) as (bt & Et & Lt & Ut & _).
  eapply survives_intro; [apply place_written; eauto|..];
    pose proof (odometer_len (pl_odometer p)) as Lo.
  { rewrite !app_length, Lt, Lo. reflexivity. }
  unfold unmarshal_place. rewrite !app_length, Lt, Lo. cbn [length Nat.add Nat.eqb guard bind].
  set (e := place_enum_byte entry_type_daily_work_period_table _ _) in *.
  set (n := place_enum_byte nation_numeric_table _ _) in *.
  assert (Ee : unmarshal_enum_or_unrecognized entry_type_daily_work_period_table e = (pl_entry p, pl_entry_unrecognized p))
    by (apply place_enum_kept; auto using in_entry).
  assert (En : unmarshal_enum_or_unrecognized nation_numeric_table n = (pl_country p, pl_country_unrecognized p))
    by (apply place_enum_kept; auto using in_nation).
  clearbody e n.
  assert (L3 : length [e; n; r] = 3%nat) by reflexivity.
  pick. rewrite Ut. cbn [bind nth List.app]. rewrite Ee, En.
  eexists. split; [reflexivity|]. unfold plain_place.
  cbn [fst snd pl_time pl_entry pl_entry_unrecognized pl_country pl_country_unrecognized pl_region pl_odometer].
  rewrite odometer_read by auto. now rewrite Er.
Qed.

Definition place_g2_ok (p : place_g2) : Prop :=
  raw_ok 21 (pl2_raw p) /\ writable_time (pl2_time p) /\
  coded_or_kept entry_type_daily_work_period_table (pl2_entry p) (pl2_entry_unrecognized p) /\
  coded_or_kept nation_numeric_table (pl2_country p) (pl2_country_unrecognized p) /\
  (exists r, pl2_region p = [r]) /\ 0 <= pl2_odometer p < 16777216 /\ gnss_ok (pl2_gnss p).

Definition plain_place_g2 (p : place_g2) : place_g2 :=
  mkPlace2 [] (pl2_time p) (pl2_entry p) (pl2_entry_unrecognized p) (pl2_country p) (pl2_country_unrecognized p)
    (pl2_region p) (pl2_odometer p) (pl2_gnss p).

Lemma place_g2_written p t r g : raw_ok 21 (pl2_raw p) -> append_time (pl2_time p) = Ok t -> pl2_region p = [r] ->
  append_gnss_place (pl2_gnss p) = Ok g ->
  append_place_g2 p =
  Ok (t ++ [place_enum_byte entry_type_daily_work_period_table (pl2_entry p) (pl2_entry_unrecognized p);
            place_enum_byte nation_numeric_table (pl2_country p) (pl2_country_unrecognized p); r] ++
      append_odometer (pl2_odometer p) ++ g).
Proof.
  intros R Et Er Eg. unfold append_place_g2. destruct (canvas_raw_ok _ _ R) as (c & -> & Lc). cbn [bind].
  rewrite Et, Er. cbn [bind]. rewrite Eg. cbn [bind]. pose proof (append_time_len _ _ Et) as Lt.
  pose proof (append_gnss_len _ _ Eg) as Lg.
  pose proof (odometer_len (pl2_odometer p)) as Lo.
  set (e := place_enum_byte entry_type_daily_work_period_table _ _).
  set (n := place_enum_byte nation_numeric_table _ _).
  set (o := append_odometer (pl2_odometer p)) in *. clearbody e n o. f_equal.
  unfold set_byte. rewrite paint_first by lia.
  repeat (rewrite paint_next by (rewrite ?app_length, ?skipn_length; cbn [length]; lia)).
  rewrite skipn_all2 by (rewrite ?skipn_length; lia). rewrite app_nil_r, <- !app_assoc. reflexivity.
Qed.

Lemma place_g2_survives p : place_g2_ok p -> survives append_place_g2 unmarshal_place_g2 plain_place_g2 21 p.
Proof.
  intros (R & Wt & Ke & Kc & (r & Er) & Ho & Hg).
  destruct (time_survives _ Wt) as (bt & Et & Lt & Ut & _).
  destruct (gnss_survives _ Hg) as (bg & g & Eg & Ag & Lg & Ug).
  eapply survives_intro; [apply place_g2_written; eauto|..];
    pose proof (odometer_len (pl2_odometer p)) as Lo.
  { rewrite !app_length, Lt, Lo, Lg. reflexivity. }
  unfold unmarshal_place_g2. rewrite !app_length, Lt, Lo, Lg. cbn [length Nat.add Nat.eqb guard bind].
  set (e := place_enum_byte entry_type_daily_work_period_table _ _) in *.
  set (n := place_enum_byte nation_numeric_table _ _) in *.
  assert (Ee : unmarshal_enum_or_unrecognized entry_type_daily_work_period_table e = (pl2_entry p, pl2_entry_unrecognized p))
    by (apply place_enum_kept; auto using in_entry).
  assert (En : unmarshal_enum_or_unrecognized nation_numeric_table n = (pl2_country p, pl2_country_unrecognized p))
    by (apply place_enum_kept; auto using in_nation).
  clearbody e n.
  assert (L3 : length [e; n; r] = 3%nat) by reflexivity.
  pick. rewrite Ut. cbn [bind nth List.app]. rewrite Ee, En, Ug. cbn [bind].
  eexists. split; [reflexivity|]. unfold plain_place_g2.
  cbn [fst snd pl2_time pl2_entry pl2_entry_unrecognized pl2_country pl2_country_unrecognized pl2_region pl2_odometer pl2_gnss].
  rewrite odometer_read by auto. now rewrite Er, Eg.
Qed.

Definition counter_ok (o : option bcd_string) : Prop := exists v, o = Some (mkBcd v 2) /\ 0 <= v < 10000.

Definition card_vehicle_ok (cm : Z -> Z -> Z) (r : card_vehicle) : Prop :=
  raw_ok 31 (cv_raw r) /\ 0 <= cv_odo_begin r < 16777216 /\ 0 <= cv_odo_end r < 16777216 /\
  writable_time (cv_first_use r) /\ writable_time (cv_last_use r) /\ vreg_ok cm (cv_reg r) /\
  counter_ok (cv_counter r).

Definition plain_card_vehicle (r : card_vehicle) : card_vehicle :=
  mkCV [] (cv_odo_begin r) (cv_odo_end r) (cv_first_use r) (cv_last_use r) (option_map plain_vreg (cv_reg r))
    (cv_counter r).

Lemma card_vehicle_survives cm r : ascii_charmaps cm -> card_vehicle_ok cm r ->
  survives append_card_vehicle (unmarshal_card_vehicle cm) plain_card_vehicle 31 r.
Proof.
  intros A (R & Hb & He & Wf & Wl & Hv & (k & Ek & Hk)).
  destruct (time_survives _ Wf) as (bf & Ef & Lf & Uf & _).
  destruct (time_survives _ Wl) as (bl & El & Ll & Ul & _).
  destruct (vreg_survives cm _ A Hv) as (bv & v & v0 & Ev & Av & Lv & Uv & Pv).
  destruct (bcd_survives k Hk) as (bk & Ak & Lk & Uk).
  pose proof (odometer_len (cv_odo_begin r)) as L1. pose proof (odometer_len (cv_odo_end r)) as L2.
  apply (survives_intro _ _ _ _ _ (append_odometer (cv_odo_begin r) ++ append_odometer (cv_odo_end r) ++
                                   bf ++ bl ++ bv ++ bk)).
  - unfold append_card_vehicle. destruct (canvas_raw_ok _ _ R) as (c & -> & Lc). cbn [bind].
    rewrite Ef, El, Av, Ek. cbn [bind]. rewrite Ak. cbn [bind].
    set (o1 := append_odometer _) in *. set (o2 := append_odometer _) in *. clearbody o1 o2. f_equal.
    rewrite paint_first by lia.
    repeat (rewrite paint_next by (rewrite ?app_length, ?skipn_length; cbn [length]; lia)).
    rewrite skipn_all2 by (rewrite ?skipn_length; lia). rewrite app_nil_r, <- !app_assoc. reflexivity.
  - rewrite !app_length, L1, L2, Lf, Ll, Lv, Lk. reflexivity.
  - unfold unmarshal_card_vehicle. rewrite !app_length, L1, L2, Lf, Ll, Lv, Lk. cbn [Nat.add Nat.eqb guard bind].
    pick. rewrite Uf, Ul, Uv, Uk. cbn [bind]. eexists. split; [reflexivity|].
    unfold plain_card_vehicle. cbn [cv_odo_begin cv_odo_end cv_first_use cv_last_use cv_reg cv_counter option_map].
    rewrite !odometer_read by auto. rewrite Ev, Ek. cbn [option_map]. now rewrite Pv.
Qed.

(** The vehicle identification number: at most seventeen characters, the last one
    neither a space nor NUL. *)
Definition vin_ok (s : bytes) : Prop :=
  (length s <= 17)%nat /\ (s = [] \/ (last s 0 <> 0 /\ last s 0 <> 32)).

Definition card_vehicle_g2_ok (cm : Z -> Z -> Z) (r : card_vehicle_g2) : Prop :=
  raw_ok 48 (cv2_raw r) /\ 0 <= cv2_odo_begin r < 16777216 /\ 0 <= cv2_odo_end r < 16777216 /\
  writable_time (cv2_first_use r) /\ writable_time (cv2_last_use r) /\ vreg_ok cm (cv2_reg r) /\
  counter_ok (cv2_counter r) /\ vin_ok (cv2_vin r).

Definition plain_card_vehicle_g2 (r : card_vehicle_g2) : card_vehicle_g2 :=
  mkCV2 [] (cv2_odo_begin r) (cv2_odo_end r) (cv2_first_use r) (cv2_last_use r) (option_map plain_vreg (cv2_reg r))
    (cv2_counter r) (cv2_vin r).

Lemma trim_right_spaces k : trim_right_bytes vin_cut (repeat 32 k) = [].
Proof. induction k as [|k IH]; [reflexivity|]. cbn [repeat trim_right_bytes]. now rewrite IH. Qed.

Lemma trim_right_kept s k : s = [] \/ (last s 0 <> 0 /\ last s 0 <> 32) ->
  trim_right_bytes vin_cut (s ++ repeat 32 k) = s.
Proof.
  intros [->|[N0 N32]]; [apply trim_right_spaces|]. revert N0 N32.
  induction s as [|b s IH]; intros N0 N32; [cbn in N0; lia|].
  cbn [List.app trim_right_bytes]. destruct s as [|b' s].
  - cbn [List.app]. rewrite trim_right_spaces. cbn [last] in *. unfold vin_cut.
    destruct (Z.eqb_spec b 0); [contradiction|]. destruct (Z.eqb_spec b 32); [contradiction|reflexivity].
  - rewrite IH by exact N0 || exact N32. reflexivity.
Qed.

Lemma card_vehicle_g2_survives cm r : ascii_charmaps cm -> card_vehicle_g2_ok cm r ->
  survives append_card_vehicle_g2 (unmarshal_card_vehicle_g2 cm) plain_card_vehicle_g2 48 r.
Proof.
  intros A (R & Hb & He & Wf & Wl & Hv & (k & Ek & Hk) & (Ln & Hn)).
  destruct (time_survives _ Wf) as (bf & Ef & Lf & Uf & _).
  destruct (time_survives _ Wl) as (bl & El & Ll & Ul & _).
  destruct (vreg_survives cm _ A Hv) as (bv & v & v0 & Ev & Av & Lv & Uv & Pv).
  destruct (bcd_survives k Hk) as (bk & Ak & Lk & Uk).
  pose proof (odometer_len (cv2_odo_begin r)) as L1. pose proof (odometer_len (cv2_odo_end r)) as L2.
  assert (Lp : length (pad_spaces 17 (cv2_vin r)) = 17%nat)
    by (unfold pad_spaces; rewrite app_length, repeat_length; lia).
  apply (survives_intro _ _ _ _ _ (append_odometer (cv2_odo_begin r) ++ append_odometer (cv2_odo_end r) ++
                                   bf ++ bl ++ bv ++ bk ++ pad_spaces 17 (cv2_vin r))).
  - unfold append_card_vehicle_g2. destruct (canvas_raw_ok _ _ R) as (c & -> & Lc). cbn [bind].
    rewrite Ef, El, Av, Ek. cbn [bind]. rewrite Ak. cbn [bind]. rewrite (firstn_all2 (cv2_vin r)) by lia.
    set (o1 := append_odometer _) in *. set (o2 := append_odometer _) in *. set (p := pad_spaces _ _) in *.
    clearbody o1 o2 p. f_equal. rewrite paint_first by lia.
    repeat (rewrite paint_next by (rewrite ?app_length, ?skipn_length; cbn [length]; lia)).
    rewrite skipn_all2 by (rewrite ?skipn_length; lia). rewrite app_nil_r, <- !app_assoc. reflexivity.
  - rewrite !app_length, L1, L2, Lf, Ll, Lv, Lk, Lp. reflexivity.
  - unfold unmarshal_card_vehicle_g2. rewrite !app_length, L1, L2, Lf, Ll, Lv, Lk, Lp. cbn [Nat.add Nat.eqb guard bind].
    pick. rewrite Uf, Ul, Uv, Uk. cbn [bind]. eexists. split; [reflexivity|].
    unfold plain_card_vehicle_g2.
    cbn [cv2_odo_begin cv2_odo_end cv2_first_use cv2_last_use cv2_reg cv2_counter cv2_vin option_map].
    rewrite !odometer_read by auto. rewrite Ev, Ek. cbn [option_map]. rewrite Pv.
    unfold pad_spaces. now rewrite trim_right_kept.
Qed.

Definition condition_ok (r : spec_cond) : Prop :=
  writable_time (sc_time r) /\
  ((coded specific_condition_type_table (sc_type r) /\ sc_unrecognized r = 0) \/
   (sc_type r = ENUM_UNRECOGNIZED /\ byte_ok (sc_unrecognized r) /\
    ~ exists v, In (v, Some (sc_unrecognized r)) specific_condition_type_table)).

Lemma condition_survives r : condition_ok r -> survives append_spec_cond unmarshal_spec_cond (fun x => x) 5 r.
Proof.
  destruct r as [t v u]. intros (Wt & K). cbn [sc_time sc_type sc_unrecognized] in *.
  destruct (time_survives _ Wt) as (bt & Et & Lt & Ut & _).
  unfold survives, append_spec_cond. cbn [sc_time sc_type sc_unrecognized]. rewrite Et. cbn [bind].
  destruct K as [[K ->]|(-> & B & N)].
  - destruct (coded_code _ _ in_condition K) as (c & Mc & Uc).
    pose proof (coded_not_unrecognized _ _ in_condition eq_refl K) as Nu.
    destruct (Z.eqb_spec v ENUM_UNRECOGNIZED); [contradiction|]. rewrite Mc. cbn [bind].
    do 2 eexists. split; [reflexivity|]. split; [rewrite app_length, Lt; reflexivity|].
    unfold unmarshal_spec_cond. rewrite app_length, Lt. cbn [length Nat.add Nat.eqb guard bind].
    pick. rewrite Ut. cbn [bind nth]. rewrite Uc. split; reflexivity.
  - rewrite Z.eqb_refl. cbn [bind]. rewrite u8_small by exact B.
    destruct (uncoded_byte _ _ in_condition N) as (e & Ue).
    do 2 eexists. split; [reflexivity|]. split; [rewrite app_length, Lt; reflexivity|].
    unfold unmarshal_spec_cond. rewrite app_length, Lt. cbn [length Nat.add Nat.eqb guard bind].
    pick. rewrite Ut. cbn [bind nth]. rewrite Ue. split; reflexivity.
Qed.

Definition gnss_record_ok (r : gnss_record) : Prop :=
  writable_time (gr_time r) /\ gnss_ok (gr_place r) /\ 0 <= gr_odometer r <= 999999.

Lemma gnss_record_survives r : gnss_record_ok r ->
  survives append_gnss_record unmarshal_gnss_record (fun x => x) 18 r.
Proof.
  destruct r as [t p o]. intros (Wt & Hp & Ho). cbn [gr_time gr_place gr_odometer] in *.
  destruct (time_survives _ Wt) as (bt & Et & Lt & Ut & _).
  destruct (gnss_survives _ Hp) as (bg & g & -> & Ag & Lg & Ug). pose proof (odometer_len o) as Lo.
  apply (survives_intro _ _ _ _ _ (bt ++ bg ++ append_odometer o)).
  - unfold append_gnss_record. cbn [gr_time gr_place gr_odometer]. rewrite Et, Ag. cbn [bind].
    assert (G : negb ((o <? 0) || (o >? 999999)) = true) by lia. rewrite G. reflexivity.
  - rewrite !app_length, Lt, Lg, Lo. reflexivity.
  - unfold unmarshal_gnss_record. rewrite !app_length, Lt, Lg, Lo. cbn [Nat.add Nat.eqb guard bind].
    pick. rewrite Ut, Ug. cbn [bind]. unfold unmarshal_odometer. rewrite Lo. cbn [Nat.eqb guard bind].
    rewrite odometer_read by lia. eauto.
Qed.

Definition unit_ok (r : unit_record) : Prop :=
  writable_time (ur_time r) /\ 0 <= ur_manufacturer r < 256 /\ length (ur_device r) = 1%nat /\
  length (ur_version r) = 4%nat.

Lemma pad_copy_exact n s : length s = n -> pad_copy n s = s.
Proof.
  intros L. unfold pad_copy. rewrite paint_first by (rewrite ?zeros_length; lia).
  rewrite skipn_all2 by (rewrite zeros_length; lia). apply app_nil_r.
Qed.

Lemma unit_survives r : unit_ok r ->
  survives append_unit_record (fun c => unmarshal_unit_record (c, c)) (fun x => x) 10 r.
Proof.
  destruct r as [t m d v]. intros (Wt & Hm & Ld & Lv). cbn [ur_time ur_manufacturer ur_device ur_version] in *.
  destruct (time_survives _ Wt) as (bt & Et & Lt & Ut & _).
  apply (survives_intro _ _ _ _ _ (bt ++ [m] ++ d ++ v)).
  - unfold append_unit_record. cbn [ur_time ur_manufacturer ur_device ur_version]. rewrite Et. cbn [bind].
    assert (G : negb ((m <? 0) || (m >? 255)) = true) by lia. rewrite G, Ld, Lv. cbn [Nat.ltb Nat.leb negb guard bind].
    rewrite !pad_copy_exact, u8_small by auto. reflexivity.
  - rewrite !app_length, Lt, Ld, Lv. reflexivity.
  - unfold unmarshal_unit_record. cbn [fst snd]. rewrite !app_length, Lt, Ld, Lv. cbn [length Nat.add Nat.eqb guard bind].
    pick. rewrite Ut. cbn [bind]. eauto.
Qed.

(** Events and faults: a valid record has a begin time; an invalid one is kept as
    its bytes. *)
Definition event_ok (cm : Z -> Z -> Z) (r : event) : Prop :=
  (ev_valid r = true /\ ev_raw r = [] /\ coded event_fault_type_table (ev_type r) /\
   writable_time (ev_begin r) /\ ev_begin r <> None /\ writable_time (ev_end r) /\ vreg_ok cm (ev_vehicle r)) \/
  (exists raw, r = mkEv false raw 0 None None None /\ length raw = 24%nat /\ be (sub raw 1 4) = 0).

Definition plain_event (r : event) : event :=
  mkEv (ev_valid r) (ev_raw r) (ev_type r) (ev_begin r) (ev_end r) (option_map plain_vreg (ev_vehicle r)).

(** The bytes of a valid record may be reused by the scanner after it was decoded
    ([fin]); only preserved bytes depend on them. *)
Lemma event_survives cm r : ascii_charmaps cm -> event_ok cm r ->
  exists b, append_event r = Ok b /\ length b = 24%nat /\
    forall fin, (ev_valid r = false -> fin = b) ->
      exists y, unmarshal_event cm (b, fin) = Ok y /\ plain_event y = plain_event r.
Proof.
  intros A [(V & Er & K & Wb & Nb & We & Hv)|(raw & -> & Lr & Z0)].
  - destruct r as [va raw ty b e v].
    cbn [ev_valid ev_raw ev_type ev_begin ev_end ev_vehicle] in *. subst va raw.
    destruct (time_survives _ Wb) as (bb & Eb & Lb & Ub & Pb).
    destruct (time_survives _ We) as (be' & Ee & Le & Ue & _).
    destruct (vreg_survives cm _ A Hv) as (bv & y & v0 & -> & Av & Lv & Uv & Pv).
    destruct (coded_code _ _ in_event K) as (c & Mc & Uc).
    exists ([c] ++ bb ++ be' ++ bv).
    assert (Mz : marshal_enum_or_zero event_fault_type_table ty = c) by (unfold marshal_enum_or_zero; now rewrite Mc).
    split; [|split].
    + unfold append_event. cbn [ev_valid ev_raw ev_type ev_begin ev_end ev_vehicle negb].
      rewrite Eb, Ee, Av, Mz. reflexivity.
    + rewrite !app_length, Lb, Le, Lv. reflexivity.
    + intros fin _. unfold unmarshal_event. cbn [fst snd]. pick.
      destruct (Z.eqb_spec (be bb) 0) as [Q|_]; [exfalso; now apply (Pb Nb)|].
      rewrite !app_length, Lb, Le, Lv. cbn [length Nat.add Nat.ltb Nat.leb negb guard bind].
      rewrite Uc, Ub, Ue, Uv. cbn [bind]. eexists. split; [reflexivity|].
      unfold plain_event. cbn [ev_valid ev_raw ev_type ev_begin ev_end ev_vehicle option_map].
      f_equal. f_equal. rewrite <- Pv. unfold plain_vreg, alias_vreg. cbn [vr_nation vr_number].
      f_equal. destruct (vr_number y); reflexivity.
  - exists raw. split; [reflexivity|]. split; [exact Lr|]. intros fin F1. rewrite (F1 eq_refl).
    unfold unmarshal_event. cbn [fst snd]. rewrite Z0. eexists. split; reflexivity.
Qed.
