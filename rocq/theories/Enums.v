(** Protocol enumerations (proto/wayplatform/connect/tachograph/dd/v1).

    A table lists the enumeration's values in declaration order as
    (number, protocol_enum_value annotation if any).  Enumeration values are
    modelled by their numbers. *)

From Verif Require Import Base.

Definition enum_table := list (Z * option Z).

(** internal/dd/enum.go:19-40, UnmarshalEnum: the first value in declaration
    order whose annotation equals the raw byte. *)
Fixpoint unmarshal_enum (T : enum_table) (raw : Z) : res Z :=
  match T with
  | [] => fail
  | (num, Some p) :: T' => if p =? raw then Ok num else unmarshal_enum T' raw
  | (_, None) :: T' => unmarshal_enum T' raw
  end.

(** internal/dd/enum.go:49-66, MarshalEnum: the annotation of the value with
    this number ([ByNumber]; numbers are unique), truncated to a byte. *)
Fixpoint marshal_enum (T : enum_table) (v : Z) : res Z :=
  match T with
  | [] => fail
  | (num, o) :: T' =>
      if num =? v then match o with Some p => Ok (u8 p) | None => fail end
      else marshal_enum T' v
  end.

(** [x, _ = MarshalEnum(v)]: the error is discarded and x is 0. *)
Definition marshal_enum_or_zero (T : enum_table) (v : Z) : Z :=
  match marshal_enum T v with Ok b => b | _ => 0 end.

(** Shared numbers: every enumeration uses 0 for UNSPECIFIED and (except
    Generation) 1 for UNRECOGNIZED. *)
Definition ENUM_UNSPECIFIED : Z := 0.
Definition ENUM_UNRECOGNIZED : Z := 1.

(** proto/wayplatform/connect/tachograph/dd/v1/calibration_purpose.proto:9-19. *)
Definition calibration_purpose_table : enum_table :=
  [(0, None); (1, None); (2, Some 0); (3, Some 1); (4, Some 2);
   (5, Some 3); (6, Some 4); (7, Some 5); (8, Some 6)].

(** proto/wayplatform/connect/tachograph/dd/v1/card_slot_number.proto:9-14. *)
Definition card_slot_number_table : enum_table :=
  [(0, None); (1, None); (2, Some 0); (3, Some 1)].

(** proto/wayplatform/connect/tachograph/dd/v1/clock_stop_mode.proto:21-42. *)
Definition clock_stop_mode_table : enum_table :=
  [(0, None); (1, None); (2, Some 0); (3, Some 1); (4, Some 2);
   (5, Some 3); (6, Some 4); (7, Some 5)].

(** proto/wayplatform/connect/tachograph/dd/v1/company_activity_type.proto:9-16. *)
Definition company_activity_type_table : enum_table :=
  [(0, None); (1, None); (2, Some 1); (3, Some 2); (4, Some 3);
   (5, Some 4)].

(** proto/wayplatform/connect/tachograph/dd/v1/driver_activity_value.proto:9-16. *)
Definition driver_activity_value_table : enum_table :=
  [(0, None); (1, None); (2, Some 0); (3, Some 1); (4, Some 2);
   (5, Some 3)].

(** proto/wayplatform/connect/tachograph/dd/v1/driving_status.proto:10-15. *)
Definition driving_status_table : enum_table :=
  [(0, None); (1, None); (2, Some 0); (3, Some 1)].

(** proto/wayplatform/connect/tachograph/dd/v1/entry_type_daily_work_period.proto:27-36. *)
Definition entry_type_daily_work_period_table : enum_table :=
  [(0, None); (1, None); (2, Some 0); (3, Some 1); (4, Some 2);
   (5, Some 3); (6, Some 4); (7, Some 5)].

(** proto/wayplatform/connect/tachograph/dd/v1/equipment_type.proto:9-32. *)
Definition equipment_type_table : enum_table :=
  [(0, None); (1, None); (2, Some 0); (3, Some 1); (4, Some 2);
   (5, Some 3); (6, Some 4); (7, Some 5); (8, Some 6); (9, Some 7);
   (10, Some 8); (11, Some 9); (12, Some 10); (13, Some 11); (14, Some 12);
   (15, Some 13); (16, Some 14); (17, Some 15); (18, Some 16); (19, Some 17);
   (20, Some 18); (21, Some 19)].

(** proto/wayplatform/connect/tachograph/dd/v1/event_fault_record_purpose.proto:9-20. *)
Definition event_fault_record_purpose_table : enum_table :=
  [(0, None); (1, None); (2, Some 0); (3, Some 1); (4, Some 2);
   (5, Some 3); (6, Some 4); (7, Some 5); (8, Some 6); (9, Some 7)].

(** proto/wayplatform/connect/tachograph/dd/v1/event_fault_type.proto:9-69. *)
Definition event_fault_type_table : enum_table :=
  [(0, None); (1, None); (2, Some 0); (3, Some 1); (4, Some 2);
   (5, Some 3); (6, Some 4); (7, Some 5); (8, Some 6); (9, Some 7);
   (10, Some 8); (11, Some 9); (12, Some 10); (13, Some 11); (14, Some 12);
   (15, Some 13); (16, Some 14); (17, Some 15); (18, Some 16); (19, Some 17);
   (20, Some 18); (21, Some 19); (22, Some 20); (23, Some 21); (24, Some 22);
   (25, Some 23); (26, Some 24); (27, Some 25); (28, Some 26); (29, Some 27);
   (30, Some 28); (31, Some 32); (32, Some 33); (33, Some 34); (34, Some 35);
   (35, Some 36); (36, Some 37); (37, Some 48); (38, Some 49); (39, Some 50);
   (40, Some 51); (41, Some 52); (42, Some 53); (43, Some 54); (44, Some 55);
   (45, Some 56); (46, Some 57); (47, Some 58); (48, Some 64)].

(** proto/wayplatform/connect/tachograph/dd/v1/generation.proto:23-27. *)
Definition generation_table : enum_table :=
  [(0, None); (1, Some 1); (2, Some 2)].

(** proto/wayplatform/connect/tachograph/dd/v1/load_type.proto:20-35. *)
Definition load_type_table : enum_table :=
  [(0, None); (1, None); (2, Some 0); (3, Some 1); (4, Some 2)].

(** proto/wayplatform/connect/tachograph/dd/v1/nation_numeric.proto:12-75. *)
Definition nation_numeric_table : enum_table :=
  [(0, None); (1, None); (2, Some 0); (3, Some 255); (4, Some 1);
   (5, Some 2); (6, Some 3); (7, Some 4); (8, Some 5); (9, Some 6);
   (10, Some 7); (11, Some 8); (12, Some 9); (13, Some 10); (14, Some 11);
   (15, Some 12); (16, Some 13); (17, Some 14); (18, Some 15); (19, Some 16);
   (20, Some 17); (21, Some 18); (22, Some 19); (23, Some 20); (24, Some 21);
   (25, Some 22); (26, Some 23); (27, Some 24); (28, Some 25); (29, Some 26);
   (30, Some 27); (31, Some 28); (32, Some 29); (33, Some 30); (34, Some 31);
   (35, Some 32); (36, Some 33); (37, Some 34); (38, Some 35); (39, Some 36);
   (40, Some 37); (41, Some 38); (42, Some 39); (43, Some 40); (44, Some 41);
   (45, Some 42); (46, Some 43); (47, Some 44); (48, Some 45); (49, Some 46);
   (50, Some 47); (51, Some 48); (52, Some 49); (53, Some 50); (54, Some 53);
   (55, Some 54); (56, Some 56); (57, Some 253); (58, Some 254)].

(** proto/wayplatform/connect/tachograph/dd/v1/operation_type.proto:16-31. *)
Definition operation_type_table : enum_table :=
  [(0, None); (1, None); (2, Some 1); (3, Some 2); (4, Some 3)].

(** proto/wayplatform/connect/tachograph/dd/v1/position_authentication_status.proto:19-31. *)
Definition position_authentication_status_table : enum_table :=
  [(0, None); (1, None); (2, Some 0); (3, Some 1)].

(** proto/wayplatform/connect/tachograph/dd/v1/slot_card_type.proto:19-45. *)
Definition slot_card_type_table : enum_table :=
  [(0, None); (1, None); (2, Some 0); (3, Some 1); (4, Some 2);
   (5, Some 3); (6, Some 4)].

(** proto/wayplatform/connect/tachograph/dd/v1/specific_condition_type.proto:34-42. *)
Definition specific_condition_type_table : enum_table :=
  [(0, None); (1, None); (2, Some 0); (3, Some 1); (4, Some 2);
   (5, Some 3); (6, Some 4)].
(** Every protocol enumeration above. *)
Definition all_enum_tables : list enum_table :=
  [calibration_purpose_table; card_slot_number_table; clock_stop_mode_table;
   company_activity_type_table; driver_activity_value_table; driving_status_table;
   entry_type_daily_work_period_table; equipment_type_table;
   event_fault_record_purpose_table; event_fault_type_table; generation_table;
   load_type_table; nation_numeric_table; operation_type_table;
   position_authentication_status_table; slot_card_type_table;
   specific_condition_type_table].

(** ** Well-formed tables *)

Definition table_numbers (T : enum_table) : list Z := map fst T.

Fixpoint table_codes (T : enum_table) : list Z :=
  match T with
  | [] => []
  | (_, Some p) :: T' => p :: table_codes T'
  | (_, None) :: T' => table_codes T'
  end.

Fixpoint nodupb (l : list Z) : bool :=
  match l with
  | [] => true
  | x :: t => negb (existsb (Z.eqb x) t) && nodupb t
  end.

Lemma nodupb_NoDup l : nodupb l = true -> NoDup l.
Proof.
  induction l as [|x l IH]; simpl; intros H; constructor; apply andb_prop in H as [H1 H2].
  - intros Hin. apply negb_true_iff in H1.
    assert (existsb (Z.eqb x) l = true); [|congruence].
    apply existsb_exists. exists x; split; auto. apply Z.eqb_refl.
  - auto.
Qed.

Definition enum_wfb (T : enum_table) : bool :=
  nodupb (table_numbers T) && nodupb (table_codes T) &&
  forallb (fun p => (0 <=? p) && (p <? 256)) (table_codes T).

Lemma all_enum_tables_wf : forallb enum_wfb all_enum_tables = true.
Proof. vm_compute. reflexivity. Qed.

Lemma table_codes_in T v p : In (v, Some p) T -> In p (table_codes T).
Proof.
  induction T as [|[n [q|]] T IH]; simpl; intros H; auto.
  - destruct H as [H|H]; [injection H as -> ->; now left | right; auto].
  - destruct H as [H|H]; [discriminate | auto].
Qed.

Lemma enum_wf_range T v p :
  enum_wfb T = true -> In (v, Some p) T -> 0 <= p < 256.
Proof.
  unfold enum_wfb; intros H Hin. apply andb_prop in H as [_ H].
  rewrite forallb_forall in H. apply table_codes_in in Hin.
  specialize (H p Hin). lia.
Qed.

Lemma unmarshal_enum_sound T raw v : unmarshal_enum T raw = Ok v -> In (v, Some raw) T.
Proof.
  induction T as [|[n [q|]] T IH]; simpl; [discriminate| |auto].
  destruct (Z.eqb_spec q raw); intros H; [injection H as ->; subst; now left | auto].
Qed.

Lemma unmarshal_enum_complete T raw v :
  nodupb (table_codes T) = true -> In (v, Some raw) T -> unmarshal_enum T raw = Ok v.
Proof.
  induction T as [|[n [q|]] T IH]; simpl; intros W H; [tauto| |].
  - apply andb_prop in W as [W1 W2]. destruct H as [H|H].
    + injection H as -> ->. now rewrite Z.eqb_refl.
    + destruct (Z.eqb_spec q raw) as [->|]; [|auto].
      apply table_codes_in in H. apply negb_true_iff in W1.
      assert (existsb (Z.eqb raw) (table_codes T) = true); [|congruence].
      apply existsb_exists; exists raw; split; auto; apply Z.eqb_refl.
  - destruct H as [H|H]; [discriminate|auto].
Qed.

Lemma unmarshal_enum_iff T raw v :
  enum_wfb T = true -> (unmarshal_enum T raw = Ok v <-> In (v, Some raw) T).
Proof.
  intros W. split; [apply unmarshal_enum_sound|].
  apply unmarshal_enum_complete. unfold enum_wfb in W.
  apply andb_prop in W as [W _]. now apply andb_prop in W as [_ W].
Qed.

Lemma unmarshal_enum_no_panic T raw : unmarshal_enum T raw <> Panic.
Proof.
  induction T as [|[n [q|]] T IH]; simpl; [discriminate| |auto].
  destruct (q =? raw); [discriminate|auto].
Qed.

Lemma marshal_enum_sound T v p :
  enum_wfb T = true -> marshal_enum T v = Ok p -> In (v, Some p) T.
Proof.
  intros W. assert (R : forall v p, In (v, Some p) T -> 0 <= p < 256)
    by (intros; eapply enum_wf_range; eauto).
  clear W. induction T as [|[n o] T IH]; simpl; [discriminate|].
  destruct (Z.eqb_spec n v) as [->|].
  - destruct o as [q|]; [|discriminate]. intros H; injection H as <-.
    left. specialize (R v q (or_introl eq_refl)). unfold u8.
    rewrite Z.mod_small by lia. reflexivity.
  - intros H; right; apply IH; auto. intros; eapply R; right; eauto.
Qed.

Lemma marshal_enum_iff T v p :
  enum_wfb T = true -> (marshal_enum T v = Ok p <-> In (v, Some p) T).
Proof.
  intros W. split; [apply marshal_enum_sound; auto|]. intros H.
  pose proof (enum_wf_range _ _ _ W H) as R.
  unfold enum_wfb in W. apply andb_prop in W as [W _]. apply andb_prop in W as [W _].
  unfold table_numbers in W. induction T as [|[n o] T IH]; simpl in *; [tauto|].
  apply andb_prop in W as [W1 W2]. destruct H as [H|H].
  - injection H as -> ->. rewrite Z.eqb_refl. unfold u8.
    rewrite Z.mod_small by lia. reflexivity.
  - destruct (Z.eqb_spec n v) as [->|]; [|auto].
    apply negb_true_iff in W1.
    assert (existsb (Z.eqb v) (map fst T) = true); [|congruence].
    apply existsb_exists; exists v; split; [|apply Z.eqb_refl].
    apply (in_map fst) in H; auto.
Qed.

Lemma marshal_enum_no_panic T v : marshal_enum T v <> Panic.
Proof.
  induction T as [|[n o] T IH]; simpl; [discriminate|].
  destruct (n =? v); [destruct o; discriminate|auto].
Qed.

Lemma marshal_unmarshal_enum T raw v :
  enum_wfb T = true -> unmarshal_enum T raw = Ok v -> marshal_enum T v = Ok raw.
Proof. intros W H. apply marshal_enum_iff; auto. now apply unmarshal_enum_iff in H. Qed.

Lemma unmarshal_marshal_enum T raw v :
  enum_wfb T = true -> marshal_enum T v = Ok raw -> unmarshal_enum T raw = Ok v.
Proof. intros W H. apply unmarshal_enum_iff; auto. now apply marshal_enum_iff in H. Qed.
