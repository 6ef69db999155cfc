(** C127: verifying a card before and after it is written and read again. *)

From Verif Require Import Base DDScalar RawTypes RawCard Cert DriverCard P_Driver Vu Verify Api P_Dump Props_Dump Props_Driver.
From Verif Require Import P_Write P_WriteAll Props_Write Props_Cert Props_Verify Props_Crash.

(** Verification looks at four things of a card. *)
Lemma same_verdict k r c c' :
  dc_has c' Gen1 = dc_has c Gen1 -> dc_has c' Gen2 = dc_has c Gen2 ->
  card_certificate c' = card_certificate c -> card_sign_certificate c' = card_sign_certificate c ->
  fst (verify_file k r (Some (driver_file c'))) = fst (verify_file k r (Some (driver_file c))).
Proof.
  intros G1 G2 C S. rewrite !verify_driver_file, !verify_driver_fst, G1, G2.
  assert (E : fst (verify_gen1 k (Some r) c') = fst (verify_gen1 k (Some r) c)).
  { destruct (card_certificate c) as [x|] eqn:X; [now apply (gen1_fst k r c c' x x)|]. unfold verify_gen1. now rewrite C, X. }
  rewrite E. destruct (if dc_has c Gen1 then _ else _) as [[]|?|]; cbn [bind]; auto.
  destruct (dc_has c Gen2); auto. now apply gen2_same.
Qed.

Section Again.
  Context (cm : Z -> Z -> Z) (us : list dumped) (c : driver_card) (out : bytes) (c' : driver_card).
  Context (V : Forall dumped_ok us) (A : accepted cm us c) (M : marshal_file (Some (driver_file c)) = Ok out)
    (U : unmarshal_file cm out = Ok (driver_file c')).

  Lemma slot_again p : In p marshal_order -> fst p <> S2_ma_cert ->
    match slot_of_card c (fst p) with
    | None => slot_of_card c' (fst p) = None
    | Some (x, _) => exists v x' sg', append_content (fst p) x = Ok v /\ unmarshal_content cm (fst p) v = Ok x' /\
        slot_of_card c' (fst p) = Some (x', sg')
    end.
  Proof.
    intros J NM. apply accepted_iff in A as (os & ST & I & G & E0); auto.
    assert (M' := M). rewrite E0 in M'. destruct (reread cm us os out V ST G M') as (vs & _ & V' & LO & K1 & K2 & R1 & _).
    destruct (R1 c' U) as (os' & G' & -> & _). rewrite E0.
    destruct (slot_of_card (card_of os) (fst p)) as [[x sg]|] eqn:E.
    - destruct (K2 p J) as (u & Iu & (y & sy & Ey & Ay & W)); [congruence|].
      assert (Fu : u_field u = Some (fst p)) by (rewrite W; now apply shape_field).
      apply in_split in Iu as (l & q & D). rewrite <- layout_order in LO.
      destruct (laid_out_unique vs marshal_order LO (incl_refl _) order_nodup l u q (fst p) D Fu) as [_ N].
      destruct (card_last cm vs os' (fst p) u l q G' D Fu N) as (x' & X' & _ & Q).
      rewrite E in Ey. injection Ey as -> ->. exists (u_val u), x', (u_signature u). auto.
    - apply (card_none cm vs os'); auto. unfold none_for. rewrite Forall_forall. intros u Iu F.
      destruct (K1 u Iu) as (q & _ & _ & _ & _ & (x & sg & X & _) & Fq & _).
      rewrite Fq in F. injection F as EQ. clear - X E EQ. destruct p as [s0 k0], q as [s1 k1]. cbn [fst] in *. subst s1. rewrite E in X. discriminate X.
  Qed.

  Lemma has_again a : dc_has c' a = true -> dc_has c a = true.
  Proof.
    apply accepted_iff in A as (os & ST & I & G & E0); auto.
    assert (M' := M). rewrite E0 in M'. destruct (reread cm us os out V ST G M') as (vs & _ & V' & LO & K1 & K2 & R1 & _).
    destruct (R1 c' U) as (os' & G' & -> & _). rewrite E0.
    rewrite (card_has cm vs os' a G'), (card_has cm us os a G). intros [H|(u & s & Iu & F & S)]; [auto|right].
    destruct (K1 u Iu) as (q & l & w & r & _ & _ & Fq & D & Fw & _). exists w, s.
    split; [rewrite D; apply in_app_iff; right; now left|]. split; [congruence|auto].
  Qed.

  Lemma has_written p : In p marshal_order -> slot_of_card c (fst p) <> None -> dc_has c' (slot_app (fst p)) = true.
  Proof.
    intros J NN. apply accepted_iff in A as (os & ST & I & G & E0); auto.
    assert (M' := M). rewrite E0 in M', NN. destruct (reread cm us os out V ST G M') as (vs & _ & V' & LO & K1 & K2 & R1 & _).
    destruct (R1 c' U) as (os' & G' & -> & _). rewrite (card_has cm vs os' _ G'). right.
    destruct (K2 p J NN) as (u & Iu & (y & sy & Ey & Ay & W)).
    destruct (K1 u Iu) as (q & _ & _ & _ & _ & _ & Fq & _). exists u, (fst q). split; auto. split; auto.
    rewrite W in Fq. now rewrite (written_field p (u_val u) (fst q) J Fq).
  Qed.

  Lemma gen1_again : dc_has c' Gen1 = dc_has c Gen1.
  Proof.
    destruct (dc_has c Gen1) eqn:H.
    - assert (exists p, In p marshal_order /\ slot_of_card c (fst p) <> None /\ slot_app (fst p) = Gen1) as (p & J & NN & S).
      { apply accepted_iff in A as (os & ST & I & G & E0); auto. rewrite E0 in H |- *.
        apply (card_has cm us os Gen1 G) in H as [H|(u & s & Iu & F & S)]; [discriminate|].
        assert (exists k, In (s, k) marshal_order) as [k J].
        { destruct s; try discriminate S; eexists; repeat (try (left; reflexivity); right). }
        exists (s, k). split; auto. split; auto. cbn [fst].
        destruct (none_for_dec s us) as [N|(a & w & b & D & Fw & N)].
        - unfold none_for in N. rewrite Forall_forall in N. now destruct (N u Iu).
        - destruct (card_last cm us os s w a b G D Fw N) as (x & _ & _ & ->). discriminate. }
      rewrite <- S. now apply has_written.
    - destruct (dc_has c' Gen1) eqn:H'; auto. apply has_again in H'. congruence.
  Qed.

  Lemma card_cert_again : card_certificate c' = card_certificate c.
  Proof.
    unfold card_certificate. assert (J : In (S_card_cert, Certificate) marshal_order) by repeat (try (left; reflexivity); right).
    pose proof (slot_again _ J) as H. cbn [fst] in H. specialize (H ltac:(discriminate)).
    destruct (slot_of_card c S_card_cert) as [[x sg]|] eqn:E; [|now rewrite H].
    destruct H as (v & x' & sg' & W & R & ->). cbn [append_content unmarshal_content rsa_of] in *. apply Ok_inj in W. subst v.
    apply accepted_iff in A as (os & ST & I & G & E0); auto. rewrite E0 in E.
    destruct (parsed_field cm us os S_card_cert x sg V G E) as (a & u & b & _ & _ & _ & _ & _ & X & _).
    cbn [unmarshal_content] in X. assert (RX : rsa_raw x = u_val u).
    { unfold unmarshal_rsa in X. apply bind_ok in X as (? & _ & X). apply Ok_inj in X. now subst x. }
    rewrite RX in R. rewrite R in X. now apply Ok_inj in X as ->.
  Qed.

  Lemma sign_cert_again : card_sign_certificate c' = card_sign_certificate c.
  Proof.
    unfold card_sign_certificate. assert (J : In (S2_sign_cert, CertificateG2) marshal_order) by repeat (try (left; reflexivity); right).
    pose proof (slot_again _ J) as H. cbn [fst] in H. specialize (H ltac:(discriminate)).
    destruct (slot_of_card c S2_sign_cert) as [[x sg]|] eqn:E; [|now rewrite H].
    destruct H as (v & x' & sg' & W & R & ->). cbn [append_content unmarshal_content ecc_of] in *. apply Ok_inj in W. subst v.
    apply accepted_iff in A as (os & ST & I & G & E0); auto. rewrite E0 in E.
    destruct (parsed_field cm us os S2_sign_cert x sg V G E) as (a & u & b & _ & _ & _ & _ & _ & X & _).
    cbn [unmarshal_content] in X. destruct (ecc_length _ _ X) as [_ RX].
    rewrite RX in R. rewrite R in X. now apply Ok_inj in X as ->.
  Qed.
End Again.

(** The card has a second-generation file that is written. *)
Definition keeps_gen2 (c : driver_card) : Prop :=
  exists s f, In (s, f) second_generation /\ slot_of_card c s <> None.

Lemma second_written s f : In (s, f) second_generation -> slot_app s = Gen2 /\ exists k, In (s, k) marshal_order.
Proof.
  intros J. repeat destruct J as [E|J]; try (injection E as <- <-; split; [reflexivity|]; eexists; repeat (try (left; reflexivity); right)).
  destruct J.
Qed.

Lemma gen2_kept cm us c out c' : Forall dumped_ok us -> accepted cm us c -> marshal_file (Some (driver_file c)) = Ok out ->
  unmarshal_file cm out = Ok (driver_file c') -> dc_has c' Gen2 = true -> keeps_gen2 c.
Proof.
  intros V A M U H. apply accepted_iff in A as (os & ST & I & G & E0); auto.
  assert (M' := M). rewrite E0 in M'. destruct (reread cm us os out V ST G M') as (vs & _ & V' & LO & K1 & K2 & R1 & _).
  destruct (R1 c' U) as (os' & G' & -> & _). rewrite E0.
  apply (card_has cm vs os' Gen2 G') in H as [H|(u & s & Iu & F & S)]; [discriminate|].
  destruct (K1 u Iu) as (q & _ & _ & _ & J & (x & sg & X & _) & Fq & _). rewrite Fq in F. injection F as <-.
  assert (exists f, In (fst q, f) second_generation) as [f J2].
  { clear - J S. repeat destruct J as [<-|J]; try contradiction; try discriminate S; eexists; repeat (try (left; reflexivity); right). }
  exists (fst q), f. split; auto. rewrite X. discriminate.
Qed.

(** C127.  Let a dump be accepted as card [c], let [c] be written, and let what is
    written be read as [c'].
    - If [c] passes verification, [c'] passes it.
    - If [c] has no second-generation application, or a second-generation file that
      is written, both get the same verdict.
    - Otherwise [c'] gets the verdict on the first-generation application of [c].
    Missing from the full statement, which is false (C127_verdict_refuted): in the
    last case [c] itself never passes, and [c'] may. *)
Theorem C127_verdict_partial : forall cm us c out c' k r, Forall dumped_ok us -> accepted cm us c ->
  marshal_file (Some (driver_file c)) = Ok out -> unmarshal_file cm out = Ok (driver_file c') ->
  (fst (verify_file k r (Some (driver_file c))) = Ok tt -> fst (verify_file k r (Some (driver_file c'))) = Ok tt) /\
  (dc_has c Gen2 = false \/ keeps_gen2 c ->
     fst (verify_file k r (Some (driver_file c'))) = fst (verify_file k r (Some (driver_file c)))) /\
  (dc_has c Gen2 = true -> ~ keeps_gen2 c ->
     fst (verify_file k r (Some (driver_file c'))) = fst (verify_file k r (Some (without_gen2 (driver_file c)))) /\
     fst (verify_file k r (Some (driver_file c))) <> Ok tt).
Proof.
  intros cm us c out c' k r V A M U.
  pose proof (gen1_again cm us c out c' V A M U) as G1. pose proof (card_cert_again cm us c out c' V A M U) as C1.
  pose proof (sign_cert_again cm us c out c' V A M U) as C2.
  assert (D : dc_has c' Gen2 = true <-> keeps_gen2 c).
  { split; [now apply (gen2_kept cm us c out c')|]. intros (s & f & J & N). destruct (second_written s f J) as [S [q Jq]].
    rewrite <- S. exact (has_written cm us c out c' V A M U (s, q) Jq N). }
  assert (E : dc_has c Gen2 = false \/ keeps_gen2 c ->
     fst (verify_file k r (Some (driver_file c'))) = fst (verify_file k r (Some (driver_file c)))).
  { intros H. apply same_verdict; auto. destruct H as [H|H].
    - rewrite H. destruct (dc_has c' Gen2) eqn:H'; auto. apply (has_again cm us c out c' V A M U) in H'. congruence.
    - pose proof (proj2 D H) as H'. rewrite H'. symmetry. now apply (has_again cm us c out c' V A M U). }
  assert (X : dc_has c Gen2 = true -> ~ keeps_gen2 c -> fst (verify_file k r (Some (driver_file c))) <> Ok tt).
  { intros H N O. rewrite verify_driver_file, verify_driver_fst, H in O. apply bind_ok in O as ([] & _ & O).
    unfold verify_gen2 in O. destruct (card_sign_certificate c) as [x|] eqn:S; [|discriminate O]. apply N.
    exists S2_sign_cert, 0xC101. split; [repeat (try (left; reflexivity); right)|]. intros Z0.
    unfold card_sign_certificate in S. rewrite Z0 in S. discriminate S. }
  split; [|split; [exact E|]].
  - intros O. destruct (dc_has c Gen2) eqn:H; [|rewrite E; auto].
    destruct (dc_has c' Gen2) eqn:H'; [rewrite E; auto; right; now apply D|].
    exfalso. apply X; auto. intros K. apply D in K. discriminate K.
  - intros H N. split; [|now apply X]. rewrite (without_fst k r (driver_file c) c eq_refl eq_refl).
    rewrite verify_driver_file, verify_driver_fst, G1.
    assert (H' : dc_has c' Gen2 = false) by (destruct (dc_has c' Gen2); auto; now destruct N; apply D). rewrite H'.
    assert (EQ : fst (verify_gen1 k (Some r) c') = fst (verify_gen1 k (Some r) c)).
    { destruct (card_certificate c) as [x|] eqn:X0; [now apply (gen1_fst k r c c' x x)|]. unfold verify_gen1. now rewrite C1, X0. }
    rewrite EQ. destruct (if dc_has c Gen1 then _ else _) as [[]|?|]; reflexivity.
Qed.
Print Assumptions C127_verdict_partial.

(** A card whose only second-generation file is its driving licence. *)
Definition licence_only : list dumped :=
  [icc_unit; ic_unit; gen1_unit 7 [0; 0; 0; 1]; mkDumped 0x0521 2 (zeros 53) None].

Lemma licence_plain : Forall plain licence_only.
Proof. repeat (apply Forall_cons; [exact I|]); apply Forall_nil. Qed.

Theorem C127_verdict_refuted : exists k r us c out c', Forall dumped_ok us /\ accepted no_charmap us c /\
  marshal_file (Some (driver_file c)) = Ok out /\ unmarshal_file no_charmap out = Ok (driver_file c') /\
  fst (verify_file k r (Some (driver_file c))) <> Ok tt /\ fst (verify_file k r (Some (driver_file c'))) = Ok tt.
Proof.
  destruct (marshal_result licence_only) as (V & c & out & A & M); [vm_compute; reflexivity|vm_compute; reflexivity|].
  destruct (C19_normal_form_partial no_charmap _ c out V A M) as (_ & _ & N). destruct (N licence_plain) as (c' & A' & _). clear N.
  exists toy, (toy_resolver toy_root), licence_only, c, out, c'. split; [exact V|]. split; [exact A|]. split; [exact M|]. split; [exact A'|].
  assert (H : match unmarshal_file no_charmap (dump licence_only) with
    | Ok f => match file_driver_card f with
      | Some d => dc_has d Gen2 && negb (existsb (fun p => match slot_of_card d (fst p) with None => false | _ => true end) second_generation) &&
          is_ok (fst (verify_file toy (toy_resolver toy_root) (Some (without_gen2 f))))
      | None => false end | _ => false end = true) by (vm_compute; reflexivity).
  unfold accepted in A. rewrite A in H. cbn [file_driver_card driver_file] in H.
  apply andb_true_iff in H as [H H3]. apply andb_true_iff in H as [H1 H2]. apply negb_true_iff in H2.
  assert (N : ~ keeps_gen2 c).
  { intros (s & f & J & E). assert (T : existsb (fun p => match slot_of_card c (fst p) with None => false | _ => true end) second_generation = true).
    { apply existsb_exists. exists (s, f). split; auto. cbn [fst]. destruct (slot_of_card c s); [reflexivity|now destruct E]. }
    rewrite H2 in T. discriminate T. }
  destruct (C127_verdict_partial no_charmap licence_only c out c' toy (toy_resolver toy_root) V A M A') as (_ & _ & Q).
  destruct (Q H1 N) as [Q1 Q2]. split; [exact Q2|]. rewrite Q1.
  change (is_ok (fst (verify_file toy (toy_resolver toy_root) (Some (without_gen2 (driver_file c))))) = true) in H3.
  destruct (fst (verify_file toy (toy_resolver toy_root) (Some (without_gen2 (driver_file c))))) as [[]|?|]; auto; discriminate H3.
Qed.
Print Assumptions C127_verdict_refuted.

(** A card with certificates of both generations that passes. *)
Example C127_example : exists us c out c', Forall dumped_ok us /\ accepted no_charmap us c /\
  marshal_file (Some (driver_file c)) = Ok out /\ unmarshal_file no_charmap out = Ok (driver_file c') /\
  dc_has c Gen1 = true /\ keeps_gen2 c /\ fst (verify_file toy (toy_resolver toy_root) (Some (driver_file c))) = Ok tt.
Proof.
  set (us := toy_dump [0; 0; 0; 1] [0; 0; 0; 1] 1).
  destruct (marshal_result us) as (V & c & out & A & M); [vm_compute; reflexivity|vm_compute; reflexivity|].
  assert (P : Forall plain us) by (repeat (apply Forall_cons; [exact I|]); apply Forall_nil).
  destruct (C19_normal_form_partial no_charmap _ c out V A M) as (_ & _ & N). destruct (N P) as (c' & A' & _). clear N.
  exists us, c, out, c'. split; [exact V|]. split; [exact A|]. split; [exact M|]. split; [exact A'|].
  destruct toy_verified as (d & (_ & B & O) & H). unfold accepted in A, B. fold us in B. rewrite A in B. injection B as <-.
  apply andb_true_iff in H as [H1 H2]. split; [exact H1|]. split; [|exact O].
  exists S2_sign_cert, 0xC101. split; [repeat (try (left; reflexivity); right)|]. intros Z0.
  rewrite verify_driver_file, verify_driver_fst, H2 in O. apply bind_ok in O as (? & _ & O).
  unfold verify_gen2, card_sign_certificate in O. rewrite Z0 in O. discriminate O.
Qed.
