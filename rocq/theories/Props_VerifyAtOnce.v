(** C130: a card that is verified several times at the same time. *)

From Verif Require Import Base Enums Chunks DDScalar RawTypes RawCard Infer Cert P_Cert DriverCard P_Driver Vu Verify Api P_Dump.
From Verif Require Import Props_RawCard Props_Dump Props_Driver Props_Cert Props_Verify VerifyShared VerifyAtOnce.
From Verif Require Props_VerifyShared.

(** Two messages that show the same. *)
Definition alike (a b : driver_card) : Prop :=
  (forall p, dc_has a p = dc_has b p) /\ (forall s, slot_of_card a s = slot_of_card b s).

Lemma alike_refl a : alike a a. Proof. split; reflexivity. Qed.

(** ** The changes of the two certificates *)

Lemma store_rsa_frame c d x : card_frame c d -> card_certificate d <> None -> rsa_raw x = match card_certificate d with Some a => rsa_raw a | None => [] end ->
  card_frame c (store_rsa d x).
Proof.
  intros F0 N R. eapply frame_trans; [exact F0|]. unfold card_certificate, rsa_of in *.
  unfold store_rsa. destruct (slot_of_card d S_card_cert) as [[a g]|] eqn:X; [|now destruct N]. cbn [option_map fst signature_of] in *.
  split; [|split; [|split]].
  - intros p. cbn [set_slot dc_has]. destruct (app_eqb p (slot_app S_card_cert)) eqn:E; auto. apply app_eqb_eq in E. subst p.
    rewrite (slot_present X). reflexivity.
  - intros s N1 _. apply slot_set_other. auto.
  - rewrite X, slot_set_same. eauto.
  - rewrite slot_set_other by discriminate. destruct (slot_of_card d S2_sign_cert) as [[y h]|]; auto. exists (ecc_valid y). destruct y. reflexivity.
Qed.

Lemma store_ecc_frame c d y v : card_frame c d -> card_sign_certificate d = Some y -> card_frame c (store_ecc d (ecc_mark y v)).
Proof.
  intros F0 Y. eapply frame_trans; [exact F0|]. unfold card_sign_certificate, ecc_of in Y.
  unfold store_ecc. destruct (slot_of_card d S2_sign_cert) as [[a g]|] eqn:X; [|discriminate Y]. cbn in Y. injection Y as ->. cbn [signature_of].
  split; [|split; [|split]].
  - intros p. cbn [set_slot dc_has]. destruct (app_eqb p (slot_app S2_sign_cert)) eqn:E; auto. apply app_eqb_eq in E. subst p.
    rewrite (slot_present X). reflexivity.
  - intros s _ N1. apply slot_set_other. auto.
  - rewrite slot_set_other by discriminate. destruct (slot_of_card d S_card_cert) as [[z h]|]; eauto.
  - rewrite X, slot_set_same. unfold ecc_mark. eauto.
Qed.

Lemma cert_stored d x : card_certificate (store_rsa d x) = Some x.
Proof. unfold card_certificate, store_rsa. now rewrite slot_set_same. Qed.
Lemma sign_kept d x : card_sign_certificate (store_rsa d x) = card_sign_certificate d.
Proof. unfold card_sign_certificate, store_rsa. now rewrite slot_set_other by discriminate. Qed.
Lemma sign_stored d y : card_sign_certificate (store_ecc d y) = Some y.
Proof. unfold card_sign_certificate, store_ecc. now rewrite slot_set_same. Qed.
Lemma cert_kept d y : card_certificate (store_ecc d y) = card_certificate d.
Proof. unfold card_certificate, store_ecc. now rewrite slot_set_other by discriminate. Qed.

(** A message in the frame of [c] is given by its two certificates. *)
Lemma frame_alike c d e : card_frame c d -> card_frame c e -> card_certificate d = card_certificate e ->
  card_sign_certificate d = card_sign_certificate e -> alike d e.
Proof.
  intros (D1 & D2 & D3 & D4) (E1 & E2 & E3 & E4) X Y. split; [congruence|]. intros s.
  destruct (slot_eq_dec s S_card_cert) as [->|N1].
  { unfold card_certificate, rsa_of in X. destruct (slot_of_card c S_card_cert) as [[x g]|].
    - destruct D3 as (xd & D3 & _). destruct E3 as (xe & E3 & _). rewrite D3, E3 in *. cbn in X. now injection X as ->.
    - congruence. }
  destruct (slot_eq_dec s S2_sign_cert) as [->|N2].
  { unfold card_sign_certificate, ecc_of in Y. destruct (slot_of_card c S2_sign_cert) as [[x g]|].
    - destruct D4 as (xd & D4). destruct E4 as (xe & E4). rewrite D4, E4 in *. cbn in Y. now injection Y as ->.
    - congruence. }
  rewrite D2, E2; auto.
Qed.

Lemma frame_cert c d : card_frame c d -> match card_certificate c with
  | None => card_certificate d = None
  | Some x => exists xd, card_certificate d = Some xd /\ rsa_raw xd = rsa_raw x end.
Proof.
  intros (_ & _ & D3 & _). unfold card_certificate, rsa_of. destruct (slot_of_card c S_card_cert) as [[x g]|]; cbn [option_map fst].
  - destruct D3 as (xd & -> & R). exists xd. auto.
  - now rewrite D3.
Qed.

Lemma frame_sign c d : card_frame c d -> match card_sign_certificate c with
  | None => card_sign_certificate d = None
  | Some y => exists yd, card_sign_certificate d = Some yd /\ unmarked_ecc yd = unmarked_ecc y end.
Proof.
  intros (_ & _ & _ & D4). unfold card_sign_certificate, ecc_of. destruct (slot_of_card c S2_sign_cert) as [[x g]|]; cbn [option_map fst].
  - destruct D4 as (v & ->). eexists. split; [reflexivity|reflexivity].
  - now rewrite D4.
Qed.

(** ** One goroutine *)

Section Card.
Variables (k : crypto) (r : resolver) (c : driver_card).

Definition look (d : driver_card) : stage := snd (go_on k r d Look).
Definition second (d : driver_card) : stage := snd (go_on k r d Second).

Lemma look_same d x xd : card_frame c d -> card_certificate c = Some x -> card_certificate d = Some xd -> rsa_car xd = rsa_car x ->
  look d = look c.
Proof.
  intros F0 X XD C. unfold look. cbn [go_on]. rewrite (proj1 F0), X, XD. destruct (dc_has c Gen1); [|reflexivity].
  pose proof (frame_cert c d F0) as R. rewrite X, XD in R. destruct R as (z & Z0 & R). injection Z0 as <-.
  unfold obtain_rsa_ca. rewrite C. destruct (let* o := get_rsa r (rsa_car x) in _) as [ca|e|]; auto.
  cbn [verify_rsa_with_ca].
  assert (U : unmarked xd = unmarked xd) by reflexivity.
  unfold verify_rsa. cbn [unmarked rsa_raw]. rewrite R.
  repeat match goal with |- context [if ?b then (fail, _) else _] => destruct b; [reflexivity|] end. reflexivity.
Qed.

Lemma second_same d : card_frame c d -> second d = second c.
Proof.
  intros F0. unfold second. cbn [go_on]. rewrite (proj1 F0). destruct (dc_has c Gen2); [|reflexivity].
  pose proof (frame_sign c d F0) as R. destruct (card_sign_certificate c) as [y|]; [|now rewrite R].
  destruct R as (yd & -> & R). rewrite R. cbn [obtain_ecc_ca].
  replace (ecc_car yd) with (ecc_car y) by (now apply (f_equal ecc_car) in R).
  destruct (get_ecc r (ecc_car y)) as [ca|e|]; auto. destruct (verify_ecc k (unmarked_ecc y) ca). reflexivity.
Qed.

Definition field (i : nat) (a b : rsa_cert) : Prop :=
  match i with
  | 0%nat => rsa_valid a = rsa_valid b | 1%nat => rsa_chr a = rsa_chr b | 2%nat => rsa_car a = rsa_car b
  | 3%nat => rsa_eov a = rsa_eov b | 4%nat => rsa_n a = rsa_n b | 5%nat => rsa_e a = rsa_e b
  | _ => True
  end.

Definition upto (n : nat) (d : driver_card) (new : rsa_cert) : Prop :=
  exists xd, card_certificate d = Some xd /\ forall i, (i < n)%nat -> field i xd new.

(** The first generation is done with success. *)
Definition first_done (d : driver_card) : Prop :=
  match look c with Second => True | Fill_valid new => upto 6 d new | _ => False end.

Definition marked2 (d : driver_card) (v : bool) : Prop := exists yd, card_sign_certificate d = Some yd /\ ecc_valid yd = Some v.

Definition at_stage (d : driver_card) (p : stage) : Prop :=
  match p with
  | Look => True
  | Refuse e => look c = Refuse e
  | Fill_valid new => look c = Fill_valid new
  | Fill_chr new => look c = Fill_valid new /\ upto 1 d new
  | Fill_car new => look c = Fill_valid new /\ upto 2 d new
  | Fill_eov new => look c = Fill_valid new /\ upto 3 d new
  | Fill_modulus new => look c = Fill_valid new /\ upto 4 d new
  | Fill_exponent new => look c = Fill_valid new /\ upto 5 d new
  | Second => first_done d
  | Mark v o => first_done d /\ second c = Mark v o
  | Ended o =>
      match look c with
      | Ended o' => o = o'
      | Refuse e => o = Err e /\ exists x, card_certificate c = Some x /\ card_certificate d = Some (rsa_mark x false)
      | _ => first_done d /\
          match second c with Ended o' => o = o' | Mark v o' => o = o' /\ marked2 d v | _ => False end
      end
  end.

(** The message while the goroutines run. *)
Definition sound (d : driver_card) : Prop :=
  card_frame c d /\
  (forall x xd, card_certificate c = Some x -> card_certificate d = Some xd -> rsa_car xd = rsa_car x /\
     match look c with Fill_valid _ => True | Refuse _ => xd = x \/ xd = rsa_mark x false | _ => xd = x end) /\
  match look c, second c with
  | (Second | Fill_valid _), Mark _ _ => True
  | _, _ => card_sign_certificate d = card_sign_certificate c
  end.

(** What is written stays written. *)
Definition keeps (d d' : driver_card) : Prop :=
  (forall n new, look c = Fill_valid new -> upto n d new -> upto n d' new) /\
  (forall e x, look c = Refuse e -> card_certificate c = Some x -> card_certificate d = Some (rsa_mark x false) -> card_certificate d' = Some (rsa_mark x false)) /\
  (forall v o, second c = Mark v o -> marked2 d v -> marked2 d' v).

Lemma keeps_refl d : keeps d d.
Proof. repeat split; auto. Qed.

Lemma keeps_stage d d' p : keeps d d' -> at_stage d p -> at_stage d' p.
Proof.
  intros (K1 & K2 & K3).
  assert (FD : first_done d -> first_done d') by (unfold first_done; destruct (look c) eqn:L; auto).
  destruct p; cbn [at_stage]; auto; try (intros [L U]; split; [exact L|now apply K1]).
  - intros [U L]. auto.
  - destruct (look c) eqn:L; auto;
      try (intros [U M]; split; [apply FD; exact U|]; destruct (second c) eqn:S2; auto; destruct M as [M1 M2]; split; [exact M1|]; eapply K3; eauto).
    intros (M1 & x & X & M2). split; [exact M1|]. exists x. split; [exact X|]. eapply K2; eauto.
Qed.

Lemma look_fill new : look c = Fill_valid new -> exists x, card_certificate c = Some x /\ rsa_valid new = Some true /\ rsa_raw new = rsa_raw x.
Proof.
  unfold look. cbn [go_on]. destruct (dc_has c Gen1); [|discriminate]. destruct (card_certificate c) as [x|]; [|discriminate].
  destruct (obtain_rsa_ca k (Some r) c x) as [ca|?|]; try discriminate.
  destruct (verify_rsa_with_ca k (unmarked x) (Some ca)) as [[[]|e|] b] eqn:V; try discriminate.
  2: { destruct (rsa_valid b); discriminate. }
  cbn [snd]. intros H. injection H as ->. exists x. split; [reflexivity|].
  cbn [verify_rsa_with_ca] in V. unfold verify_rsa in V.
  repeat match type of V with context [if ?b then (fail, _) else _] => destruct b; [discriminate V|] end.
  apply (f_equal snd) in V. cbn [snd] in V. subst new. cbn [rsa_valid rsa_raw unmarked]. auto.
Qed.

Hypothesis names : forall x new, card_certificate c = Some x -> look c = Fill_valid new -> rsa_car new = rsa_car x.

(** A setter of the goroutine that fills field [i]. *)
Lemma fill_step d new i f : look c = Fill_valid new -> sound d ->
  (forall a, rsa_raw (f a) = rsa_raw a) -> (forall a, field i (f a) new) ->
  (forall a j, j <> i -> field j a new -> field j (f a) new) ->
  (forall a, rsa_car (f a) = rsa_car a \/ rsa_car (f a) = rsa_car new) ->
  upto i d new -> sound (change d f) /\ upto (S i) (change d f) new /\ keeps d (change d f).
Proof.
  intros L (F0 & SX & SY) R FI FJ CA (xd & XD & U). destruct (look_fill new L) as (x & X & _).
  unfold change. rewrite XD. split; [|split].
  - split; [|split].
    + apply store_rsa_frame; auto; rewrite XD; [discriminate|apply R].
    + intros x0 xd0 X0 XD0. rewrite cert_stored in XD0. injection XD0 as <-. destruct (SX x0 xd X0 XD) as (C & _). rewrite L. split; [|exact I].
      destruct (CA xd) as [-> | ->]; auto.
    + rewrite sign_kept. rewrite L in *. exact SY.
  - exists (f xd). split; [apply cert_stored|]. intros j J. destruct (Nat.eq_dec j i) as [->|N]; [apply FI|]. apply FJ; auto. apply U. lia.
  - split; [|split].
    + intros n new' L' (xd' & XD' & U'). rewrite L in L'. injection L' as <-. rewrite XD in XD'. injection XD' as <-.
      exists (f xd). split; [apply cert_stored|]. intros j J. destruct (Nat.eq_dec j i) as [->|N]; [apply FI|auto].
    + intros e x0 L'. congruence.
    + intros v o _ (yd & YD & M). exists yd. now rewrite sign_kept.
Qed.

Lemma look_frame d : sound d -> look d = look c.
Proof.
  intros (F0 & SX & _). pose proof (frame_cert c d F0) as R. destruct (card_certificate c) as [x|] eqn:X.
  - destruct R as (xd & XD & _). destruct (SX x xd eq_refl XD) as (C & _). now apply (look_same d x xd).
  - unfold look. cbn [go_on]. rewrite (proj1 F0), X, R. destruct (dc_has c Gen1); reflexivity.
Qed.

Lemma one_step d p : sound d -> at_stage d p ->
  sound (fst (go_on k r d p)) /\ at_stage (fst (go_on k r d p)) (snd (go_on k r d p)) /\ keeps d (fst (go_on k r d p)).
Proof.
  intros G Q. destruct p as [|e|new|new|new|new|new|new| |v o|o].
  - (* look *)
    assert (E : fst (go_on k r d Look) = d).
    { cbn [go_on]. destruct (dc_has d Gen1); [|reflexivity]. destruct (card_certificate d) as [x|]; [|reflexivity].
      destruct (obtain_rsa_ca k (Some r) d x) as [ca|?|]; try reflexivity.
      destruct (verify_rsa_with_ca k (unmarked x) (Some ca)) as [[[]|?|] b]; reflexivity. }
    rewrite E. split; [exact G|]. split; [|apply keeps_refl].
    change (snd (go_on k r d Look)) with (look d). rewrite (look_frame d G).
    destruct (look c) as [|e|new|new|new|new|new|new| |v o|o] eqn:L; cbn [at_stage]; unfold first_done; rewrite ?L; auto;
      exfalso; revert L; unfold look; cbn [go_on];
      (destruct (dc_has c Gen1); [|discriminate]); (destruct (card_certificate c) as [x|]; [|discriminate]);
      (destruct (obtain_rsa_ca k (Some r) c x) as [ca|?|]; try discriminate);
      (destruct (verify_rsa_with_ca k (unmarked x) (Some ca)) as [[[]|?|] b]; try discriminate); cbn [snd]; destruct (rsa_valid b); discriminate.
  - (* refuse *)
    cbn [at_stage] in Q. cbn [go_on fst snd]. destruct G as (F0 & SX & SY).
    assert (exists x, card_certificate c = Some x) as (x & X).
    { revert Q. unfold look. cbn [go_on]. destruct (dc_has c Gen1); [|discriminate]. destruct (card_certificate c) as [x|]; [eauto|discriminate]. }
    pose proof (frame_cert c d F0) as R. rewrite X in R. destruct R as (xd & XD & R).
    destruct (SX x xd X XD) as (C & W). rewrite Q in W. unfold change. rewrite XD.
    assert (EM : rsa_mark xd false = rsa_mark x false) by (destruct W as [-> | ->]; reflexivity).
    split; [|split].
    + split; [|split].
      * apply store_rsa_frame; auto; rewrite XD; [discriminate|reflexivity].
      * intros x0 xd0 X0 XD0. rewrite cert_stored in XD0. injection XD0 as <-. rewrite X in X0. injection X0 as <-. rewrite Q. split; [exact C|].
        right. exact EM.
      * rewrite sign_kept. rewrite Q in *. exact SY.
    + cbn [at_stage]. rewrite Q. split; [reflexivity|]. exists x. split; [exact X|]. rewrite cert_stored. now rewrite EM.
    + split; [|split].
      * intros n new L'. congruence.
      * intros e0 x0 _ X0 _. rewrite X in X0. injection X0 as <-. rewrite cert_stored. now rewrite EM.
      * intros v o _ (yd & YD & M). exists yd. now rewrite sign_kept.
  - cbn [at_stage] in Q. destruct (look_fill new Q) as (x & X & VN & _).
    destruct (fill_step d new 0 (fun a => rsa_mark a true) Q G) as (A & B & D); [reflexivity|intros a; now symmetry| |auto| |].
    + intros a [|[|[|[|[|[|j]]]]]]; cbn; (auto || congruence).
    + pose proof (frame_cert c d (proj1 G)) as R. rewrite X in R. destruct R as (xd & XD & _). exists xd. split; auto. lia.
    + cbn [go_on fst snd at_stage]. auto.
  - cbn [at_stage] in Q. destruct Q as (L & U).
    destruct (fill_step d new 1 (fun a => mkRsa (rsa_chr new) (rsa_car a) (rsa_eov a) (rsa_n a) (rsa_e a) (rsa_raw a) (rsa_valid a)) L G) as (A & B & D); [reflexivity|reflexivity| |auto| |].
    + intros a [|[|[|[|[|[|j]]]]]]; cbn; (auto || congruence).
    + exact U.
    + cbn [go_on fst snd at_stage]. auto.
  - cbn [at_stage] in Q. destruct Q as (L & U).
    destruct (fill_step d new 2 (fun a => mkRsa (rsa_chr a) (rsa_car new) (rsa_eov a) (rsa_n a) (rsa_e a) (rsa_raw a) (rsa_valid a)) L G) as (A & B & D); [reflexivity|reflexivity| |auto| |].
    + intros a [|[|[|[|[|[|j]]]]]]; cbn; (auto || congruence).
    + exact U.
    + cbn [go_on fst snd at_stage]. auto.
  - cbn [at_stage] in Q. destruct Q as (L & U).
    destruct (fill_step d new 3 (fun a => mkRsa (rsa_chr a) (rsa_car a) (rsa_eov new) (rsa_n a) (rsa_e a) (rsa_raw a) (rsa_valid a)) L G) as (A & B & D); [reflexivity|reflexivity| |auto| |].
    + intros a [|[|[|[|[|[|j]]]]]]; cbn; (auto || congruence).
    + exact U.
    + cbn [go_on fst snd at_stage]. auto.
  - cbn [at_stage] in Q. destruct Q as (L & U).
    destruct (fill_step d new 4 (fun a => mkRsa (rsa_chr a) (rsa_car a) (rsa_eov a) (rsa_n new) (rsa_e a) (rsa_raw a) (rsa_valid a)) L G) as (A & B & D); [reflexivity|reflexivity| |auto| |].
    + intros a [|[|[|[|[|[|j]]]]]]; cbn; (auto || congruence).
    + exact U.
    + cbn [go_on fst snd at_stage]. auto.
  - cbn [at_stage] in Q. destruct Q as (L & U).
    destruct (fill_step d new 5 (fun a => mkRsa (rsa_chr a) (rsa_car a) (rsa_eov a) (rsa_n a) (rsa_e new) (rsa_raw a) (rsa_valid a)) L G) as (A & B & D); [reflexivity|reflexivity| |auto| |].
    + intros a [|[|[|[|[|[|j]]]]]]; cbn; (auto || congruence).
    + exact U.
    + cbn [go_on fst snd at_stage]. unfold first_done. rewrite L. auto.
  - (* second *)
    assert (E : fst (go_on k r d Second) = d).
    { cbn [go_on]. destruct (dc_has d Gen2); [|reflexivity]. destruct (card_sign_certificate d) as [y|]; [|reflexivity].
      destruct (obtain_ecc_ca (Some r) d y) as [ca|?|]; try reflexivity. destruct (verify_ecc k (unmarked_ecc y) ca); reflexivity. }
    rewrite E. split; [exact G|]. split; [|apply keeps_refl].
    change (snd (go_on k r d Second)) with (second d). rewrite (second_same d (proj1 G)). cbn [at_stage] in Q.
    destruct (second c) as [|e|new|new|new|new|new|new| |v o|o] eqn:L; cbn [at_stage]; auto;
      try (exfalso; revert L; unfold second; cbn [go_on]; (destruct (dc_has c Gen2); [|discriminate]); (destruct (card_sign_certificate c) as [x|]; [|discriminate]);
      (destruct (obtain_ecc_ca (Some r) c x) as [ca|?|]; try discriminate);
      (destruct (verify_ecc k (unmarked_ecc x) ca) as [? b]; cbn [snd]; destruct (ecc_valid b); discriminate)).
    unfold first_done in Q. destruct (look c) eqn:L1; try contradiction; rewrite L; (split; [|reflexivity]); unfold first_done; rewrite L1; exact Q.
  - (* mark *)
    cbn [at_stage] in Q. destruct Q as (Q & L). cbn [go_on fst snd]. destruct G as (F0 & SX & SY).
    assert (exists y, card_sign_certificate c = Some y) as (y & Y).
    { revert L. unfold second. cbn [go_on]. destruct (dc_has c Gen2); [|discriminate]. destruct (card_sign_certificate c) as [y|]; [eauto|discriminate]. }
    pose proof (frame_sign c d F0) as R. rewrite Y in R. destruct R as (yd & YD & R). rewrite YD.
    assert (LC : match look c with Second | Fill_valid _ => True | _ => False end) by (unfold first_done in Q; destruct (look c); auto).
    split; [|split].
    + split; [|split].
      * now apply store_ecc_frame.
      * intros x0 xd0 X0 XD0. rewrite cert_kept in XD0. auto.
      * rewrite L. destruct (look c); try contradiction; exact I.
    + cbn [at_stage].
      assert (FD : first_done (store_ecc d (ecc_mark yd v))).
      { unfold first_done in *. destruct (look c); auto. unfold upto in *. now rewrite cert_kept. }
      rewrite L. assert (M : marked2 (store_ecc d (ecc_mark yd v)) v) by (exists (ecc_mark yd v); split; [apply sign_stored|reflexivity]).
      destruct (look c); try contradiction; auto.
    + split; [|split].
      * intros n new _. unfold upto. now rewrite cert_kept.
      * intros e x0 L'. rewrite L' in LC. contradiction.
      * intros v' o' L' _. rewrite L in L'. injection L' as <- <-. exists (ecc_mark yd v). split; [apply sign_stored|reflexivity].
  - cbn [go_on fst snd]. split; [exact G|]. split; [exact Q|apply keeps_refl].
Qed.

Definition rank (p : stage) : nat :=
  match p with
  | Look => 9 | Fill_valid _ => 8 | Fill_chr _ => 7 | Fill_car _ => 6 | Fill_eov _ => 5 | Fill_modulus _ => 4
  | Fill_exponent _ => 3 | Second => 2 | Refuse _ | Mark _ _ => 1 | Ended _ => 0
  end.

Lemma go_on_rank d p : (rank (snd (go_on k r d p)) <= rank p - 1)%nat.
Proof.
  destruct p; cbn [go_on snd rank]; try lia.
  - destruct (dc_has d Gen1); [|cbn; lia]. destruct (card_certificate d) as [x|]; [|cbn; lia].
    destruct (obtain_rsa_ca k (Some r) d x) as [ca|?|]; try (cbn; lia).
    destruct (verify_rsa_with_ca k (unmarked x) (Some ca)) as [[[]|?|] b]; cbn [snd]; try (cbn; lia). destruct (rsa_valid b); cbn; lia.
  - destruct (dc_has d Gen2); [|cbn; lia]. destruct (card_sign_certificate d) as [x|]; [|cbn; lia].
    destruct (obtain_ecc_ca (Some r) d x) as [ca|?|]; try (cbn; lia).
    destruct (verify_ecc k (unmarked_ecc x) ca) as [? b]; cbn [snd]. destruct (ecc_valid b); cbn; lia.
Qed.

Definition all_sound (s : driver_card * list stage) : Prop :=
  sound (fst s) /\ forall i p, nth_error (snd s) i = Some p -> at_stage (fst s) p.

Lemma turn_sound s i : all_sound s -> all_sound (turn k r s i) /\
  forall j p, nth_error (snd s) j = Some p -> exists p', nth_error (snd (turn k r s i)) j = Some p' /\
    (rank p' <= rank p - (if Nat.eq_dec i j then 1 else 0))%nat.
Proof.
  intros [So T]. destruct s as [d ps]. cbn [fst snd] in *. unfold turn.
  destruct (nth_error ps i) as [p|] eqn:E.
  - destruct (one_step d p So (T _ _ E)) as (S' & T' & G). pose proof (go_on_rank d p) as R.
    destruct (go_on k r d p) as [d' p']. cbn [fst snd] in *. split.
    + split; [exact S'|]. cbn [fst snd]. intros j p1. rewrite Props_VerifyShared.update_nth. destruct (Nat.eq_dec i j) as [<-|N].
      * rewrite E. intros [= <-]. exact T'.
      * intros E1. eapply keeps_stage; [exact G|]. eapply T. exact E1.
    + intros j p1 E1. rewrite Props_VerifyShared.update_nth. destruct (Nat.eq_dec i j) as [<-|N].
      * rewrite E in *. injection E1 as <-. exists p'. split; [reflexivity|lia].
      * exists p1. split; [exact E1|lia].
  - split; [split; assumption|]. cbn [snd]. intros j p1 E1. exists p1. split; [exact E1|].
    destruct (Nat.eq_dec i j) as [<-|N]; [congruence|lia].
Qed.

Lemma turns_sound turns s : all_sound s -> all_sound (fold_left (turn k r) turns s) /\
  forall j p, nth_error (snd s) j = Some p -> exists p', nth_error (snd (fold_left (turn k r) turns s)) j = Some p' /\
    (rank p' <= rank p - count_occ Nat.eq_dec turns j)%nat.
Proof.
  revert s. induction turns as [|i turns IH]; intros s T.
  - split; [exact T|]. intros j p E. exists p. cbn. split; [exact E|lia].
  - destruct (turn_sound s i T) as [T' R]. destruct (IH _ T') as [T'' R']. split; [exact T''|].
    intros j p E. destruct (R _ _ E) as (p' & E' & L). destruct (R' _ _ E') as (p'' & E'' & L').
    exists p''. split; [exact E''|]. cbn [count_occ]. destruct (Nat.eq_dec i j); lia.
Qed.

Lemma sound_start : sound c.
Proof.
  split; [apply frame_refl|]. split.
  - intros x xd X XD. rewrite X in XD. injection XD as <-. split; [reflexivity|]. destruct (look c); auto.
  - destruct (look c), (second c); auto.
Qed.
End Card.

(** ** One verification alone *)

Section Alone.
Variables (k : crypto) (r : resolver) (c : driver_card).

Lemma rsa_parts x n e name :
  match verify_rsa k (unmarked x) n e name with
  | (Ok _, new) => verify_rsa k x n e name = (Ok tt, new)
  | (Err er, b) => verify_rsa k x n e name = (Err er, match rsa_valid b with Some _ => rsa_mark x false | None => x end)
  | (Panic, _) => False
  end.
Proof.
  unfold verify_rsa. change (rsa_raw (unmarked x)) with (rsa_raw x). cbv zeta.
  repeat match goal with |- context [if ?b then (fail, _) else _] => destruct b; [reflexivity|] end. reflexivity.
Qed.

Lemma ecc_parts y ca :
  verify_ecc k y ca = (fst (verify_ecc k (unmarked_ecc y) ca),
                       match ecc_valid (snd (verify_ecc k (unmarked_ecc y) ca)) with Some v => ecc_mark y v | None => y end).
Proof.
  unfold verify_ecc. replace (ecc_prepare k (unmarked_ecc y) ca) with (ecc_prepare k y ca) by reflexivity.
  destruct (ecc_prepare k y ca) as [[[[h cv] px] py]|?|]; try reflexivity. cbn [unmarked_ecc ecc_sig].
  destruct (ecc_sig y) as [[s1 s2]|]; [|reflexivity]. destruct (ecdsa k cv px py h (be s1) (be s2)) as [[]|]; reflexivity.
Qed.

Definition tail (d : driver_card) : res unit * driver_card :=
  match second k r d with
  | Ended o => (o, d)
  | Mark v o => (o, match card_sign_certificate d with Some y => store_ecc d (ecc_mark y v) | None => d end)
  | _ => (Panic, d)
  end.

Lemma store_same_ecc d y : card_sign_certificate d = Some y -> alike (store_ecc d y) d.
Proof.
  unfold card_sign_certificate, ecc_of, store_ecc. intros Y. destruct (slot_of_card d S2_sign_cert) as [[a g]|] eqn:X; [|discriminate Y].
  cbn in Y. injection Y as ->. cbn [signature_of]. split.
  - intros p. cbn [set_slot dc_has]. destruct (app_eqb p (slot_app S2_sign_cert)) eqn:E; auto. apply app_eqb_eq in E. subst p. now rewrite (slot_present X).
  - intros s. destruct (slot_eq_dec s S2_sign_cert) as [->|N]; [rewrite slot_set_same; now rewrite X|]. apply slot_set_other; auto.
Qed.

Lemma store_same_rsa d x : card_certificate d = Some x -> alike (store_rsa d x) d.
Proof.
  unfold card_certificate, rsa_of, store_rsa. intros Y. destruct (slot_of_card d S_card_cert) as [[a g]|] eqn:X; [|discriminate Y].
  cbn in Y. injection Y as ->. cbn [signature_of]. split.
  - intros p. cbn [set_slot dc_has]. destruct (app_eqb p (slot_app S_card_cert)) eqn:E; auto. apply app_eqb_eq in E. subst p. now rewrite (slot_present X).
  - intros s. destruct (slot_eq_dec s S_card_cert) as [->|N]; [rewrite slot_set_same; now rewrite X|]. apply slot_set_other; auto.
Qed.

Lemma gen2_tail d : fst (if dc_has d Gen2 then verify_gen2 k (Some r) d else (Ok tt, d)) = fst (tail d) /\
  alike (snd (if dc_has d Gen2 then verify_gen2 k (Some r) d else (Ok tt, d))) (snd (tail d)).
Proof.
  unfold tail, second. cbn [go_on]. destruct (dc_has d Gen2); [|split; [reflexivity|apply alike_refl]].
  unfold verify_gen2. destruct (card_sign_certificate d) as [y|] eqn:Y; [|split; [reflexivity|apply alike_refl]].
  destruct (obtain_ecc_ca (Some r) d y) as [ca|?|]; try (split; [reflexivity|apply alike_refl]).
  rewrite (ecc_parts y ca). destruct (verify_ecc k (unmarked_ecc y) ca) as [o b]. cbn [fst snd].
  destruct (ecc_valid b); cbn [fst snd]; (split; [reflexivity|]); [apply alike_refl|now apply store_same_ecc].
Qed.

Definition whole : res unit * driver_card :=
  match look k r c with
  | Ended o => (o, c)
  | Refuse e => (Err e, match card_certificate c with Some x => store_rsa c (rsa_mark x false) | None => c end)
  | Fill_valid new => tail (store_rsa c new)
  | Second => tail c
  | _ => (Panic, c)
  end.

Lemma alone : fst (verify_driver_card k (Some r) c) = fst whole /\ alike (snd (verify_driver_card k (Some r) c)) (snd whole) /\
  match look k r c with Ended (Ok _) => False | _ => True end.
Proof.
  unfold verify_driver_card, whole, look. cbn [go_on]. destruct (dc_has c Gen1); cbn [snd].
  2: { destruct (gen2_tail c) as [A B]. auto. }
  unfold verify_gen1. destruct (card_certificate c) as [x|] eqn:X; [|split; [reflexivity|split; [apply alike_refl|exact I]]].
  destruct (obtain_rsa_ca k (Some r) c x) as [ca|?|]; try (split; [reflexivity|split; [apply alike_refl|exact I]]).
  cbn [verify_rsa_with_ca]. pose proof (rsa_parts x (rsa_n ca) (rsa_e ca) (rsa_chr ca)) as P.
  destruct (verify_rsa k (unmarked x) (rsa_n ca) (rsa_e ca) (rsa_chr ca)) as [[[]|er|] b]; [| |contradiction]; rewrite P; cbn [snd].
  - destruct (gen2_tail (store_rsa c b)) as [A B]. auto.
  - destruct (rsa_valid b); cbn [snd fst]; (split; [reflexivity|]); (split; [|exact I]); [apply alike_refl|now apply store_same_rsa].
Qed.
End Alone.

(** * C130: one card may be verified several times at the same time *)

(** A single verification leaves the name of the authority as it is. *)
Definition same_authority (k : crypto) (r : resolver) (c : driver_card) : Prop :=
  forall x x', card_certificate c = Some x -> card_certificate (snd (verify_driver_card k (Some r) c)) = Some x' -> rsa_car x' = rsa_car x.

Lemma alike_cert a b : alike a b -> card_certificate a = card_certificate b /\ card_sign_certificate a = card_sign_certificate b.
Proof. intros (_ & E). unfold card_certificate, card_sign_certificate. now rewrite !E. Qed.

Lemma tail_cert k r d : card_certificate (snd (tail k r d)) = card_certificate d.
Proof. unfold tail. destruct (second k r d); try reflexivity. cbn [snd]. destruct (card_sign_certificate d); [apply cert_kept|reflexivity]. Qed.

Lemma fill_names k r c : same_authority k r c ->
  forall x new, card_certificate c = Some x -> look k r c = Fill_valid new -> rsa_car new = rsa_car x.
Proof.
  intros H x new X L. apply (H x new X). destruct (alone k r c) as (_ & A & _). destruct (alike_cert _ _ A) as [-> _].
  unfold whole. rewrite L, tail_cert. apply cert_stored.
Qed.

(** What a goroutine that has ended says, and the message at that time. *)
Lemma ended_whole k r c d o : sound k r c d -> at_stage k r c d (Ended o) ->
  o = fst (whole k r c) /\ alike d (snd (whole k r c)).
Proof.
  intros (F0 & SX & SY) Q. cbn [at_stage] in Q. unfold whole.
  assert (CX : forall x, card_certificate c = Some x -> exists xd, card_certificate d = Some xd /\ rsa_raw xd = rsa_raw x).
  { intros x X. pose proof (frame_cert c d F0) as R. now rewrite X in R. }
  assert (KX : (match look k r c with Ended _ | Second => True | _ => False end) -> card_certificate d = card_certificate c).
  { intros W. pose proof (frame_cert c d F0) as R. destruct (card_certificate c) as [x|] eqn:X; [|exact R]. destruct R as (xd & XD & _).
    destruct (SX x xd eq_refl XD) as (_ & E). rewrite XD. destruct (look k r c); try contradiction; now rewrite E. }
  assert (T : forall c1, card_frame c c1 -> card_certificate d = card_certificate c1 -> card_sign_certificate c1 = card_sign_certificate c ->
     (match look k r c with Second | Fill_valid _ => True | _ => False end) ->
     match second k r c with Ended o' => o = o' | Mark v o' => o = o' /\ marked2 d v | _ => False end ->
     o = fst (tail k r c1) /\ alike d (snd (tail k r c1))).
  { intros c1 F1 X1 Y1 W M. unfold tail. rewrite (second_same k r c c1 F1).
    destruct (second k r c) as [|e|new|new|new|new|new|new| |v o'|o'] eqn:S2; try contradiction.
    - destruct M as (-> & yd & YD & V). split; [reflexivity|]. cbn [snd]. rewrite Y1.
      pose proof (frame_sign c d F0) as R. destruct (card_sign_certificate c) as [y|] eqn:Y; [|congruence].
      destruct R as (yd' & YD' & R). rewrite YD in YD'. injection YD' as <-.
      apply (frame_alike c); [exact F0|apply store_ecc_frame; congruence|rewrite cert_kept; exact X1|].
      rewrite sign_stored, YD. f_equal. destruct yd, y. unfold unmarked_ecc in R. cbn in *. unfold ecc_mark. cbn. congruence.
    - split; [exact M|]. cbn [snd]. apply (frame_alike c); auto. destruct (look k r c); try contradiction; congruence. }
  destruct (look k r c) as [|e|new|new|new|new|new|new| |v o'|o'] eqn:L; try (exfalso; destruct Q as (Q & W); clear W; unfold first_done in Q; rewrite L in Q; exact Q).
  - (* refuse *)
    destruct Q as (-> & x & X & XD). split; [reflexivity|]. rewrite X. cbn [snd]. destruct (CX x X) as (xd & XD' & R).
    apply (frame_alike c); [exact F0|apply store_rsa_frame; [apply frame_refl|congruence|now rewrite X]|rewrite cert_stored; exact XD|rewrite sign_kept; exact SY].
  - (* filled *)
    destruct Q as (Q & M). unfold first_done in Q. rewrite L in Q. destruct Q as (xd & XD & U).
    destruct (look_fill k r c new L) as (x & X & V & R). destruct (CX x X) as (xd' & XD' & R'). rewrite XD in XD'. injection XD' as <-.
    apply T; auto.
    + apply store_rsa_frame; [apply frame_refl|congruence|now rewrite X].
    + rewrite cert_stored, XD. f_equal. pose proof (U 0%nat ltac:(lia)). pose proof (U 1%nat ltac:(lia)). pose proof (U 2%nat ltac:(lia)).
      pose proof (U 3%nat ltac:(lia)). pose proof (U 4%nat ltac:(lia)). pose proof (U 5%nat ltac:(lia)). destruct xd, new. cbn in *. congruence.
    + apply sign_kept.
  - (* no first generation *)
    destruct Q as (_ & M). apply T; auto. apply frame_refl.
  - (* ended *)
    split; [exact Q|]. cbn [snd]. apply (frame_alike c); auto. apply frame_refl.
Qed.

(** Whatever the order of the steps of the goroutines that verify one message, every
    goroutine that has ended says what a single verification says, the message then
    shows what a single verification leaves, and a goroutine that has had nine turns
    has ended.

    Partial: a verification has to leave the name of the authority as it is, which is
    the case for certificates that name inside, signed, the authority they name
    outside (next theorem). *)
Theorem C130_at_once_partial : forall k r c n turns, same_authority k r c -> forall i, (i < n)%nat ->
  exists p, nth_error (snd (at_once k r c n turns)) i = Some p /\
    (forall o, p = Ended o -> o = fst (verify_driver_card k (Some r) c) /\
       alike (fst (at_once k r c n turns)) (snd (verify_driver_card k (Some r) c))) /\
    ((9 <= count_occ Nat.eq_dec turns i)%nat -> exists o, p = Ended o).
Proof.
  intros k r c n turns H i I0. unfold at_once.
  destruct (turns_sound k r c (fill_names k r c H) turns (c, repeat Look n)) as ((S' & T') & R).
  { refine (conj (sound_start k r c (fill_names k r c H)) _). intros j p E. apply nth_error_In, repeat_spec in E. subst p. exact I. }
  assert (E : nth_error (snd (c, repeat Look n)) i = Some Look).
  { cbn [snd]. rewrite (nth_error_nth' _ Look) by now rewrite repeat_length. now rewrite nth_repeat. }
  destruct (R i Look E) as (p & Ep & L). exists p. split; [exact Ep|]. split.
  - intros o ->. destruct (ended_whole k r c _ o S' (T' i _ Ep)) as (-> & A). destruct (alone k r c) as (B1 & B2 & _).
    split; [now symmetry|]. destruct A as [A1 A2], B2 as [B2 B3]. split; intros; congruence.
  - intros C. cbn [rank] in L. destruct p; cbn [rank] in L; try lia. eauto.
Qed.
Print Assumptions C130_at_once_partial.

(** Accepted cards whose certificate names one authority. *)
Lemma consistent_same : forall k r cm us c, hash_bytes k -> answers_bytes r ->
  Forall dumped_ok us -> accepted cm us c -> consistent k r c -> same_authority k r c.
Proof.
  intros k r cm us c HK R V A C x x' X X'.
  destruct (alone k r c) as (_ & AL & _). destruct (alike_cert _ _ AL) as [E _]. rewrite E in X'. clear E AL. unfold whole in X'.
  destruct (look k r c) as [|e|new|new|new|new|new|new| |v o|o] eqn:L; cbn [snd] in X'; try (rewrite X in X'; injection X' as <-; reflexivity).
  - rewrite tail_cert, cert_stored in X'. injection X' as <-. revert L. unfold look. cbn [go_on].
    destruct (dc_has c Gen1); [|discriminate]. rewrite X. destruct (obtain_rsa_ca k (Some r) c x) as [ca|?|] eqn:O; try discriminate.
    apply obtain_ok in O as (O & N); auto. cbn [verify_rsa_with_ca].
    destruct (rsa_from_dump cm us c x V A X) as (ua & u & ub & _ & _ & _ & _ & EX & _ & _ & B). rewrite <- EX in B.
    pose proof (verify_rsa_car k x (rsa_n ca) (rsa_e ca) (rsa_chr ca) HK B N) as Rc.
    pose proof (rsa_parts k x (rsa_n ca) (rsa_e ca) (rsa_chr ca)) as P.
    destruct (verify_rsa k (unmarked x) (rsa_n ca) (rsa_e ca) (rsa_chr ca)) as [[[]|er|] b]; [| |contradiction]; cbn [snd].
    2: { destruct (rsa_valid b); discriminate. }
    intros E. injection E as ->. rewrite P in Rc. cbn [snd] in Rc. destruct Rc as [Rc|(content & I0 & Rc)]; auto. rewrite Rc.
    apply (C x (rsa_chr ca) (rsa_n ca) (rsa_e ca) content); auto.
  - rewrite tail_cert, X in X'. injection X' as <-. reflexivity.
Qed.

Theorem C130_accepted_partial : forall k r cm us c n turns, hash_bytes k -> answers_bytes r ->
  Forall dumped_ok us -> accepted cm us c -> consistent k r c -> forall i, (i < n)%nat ->
  exists p, nth_error (snd (at_once k r c n turns)) i = Some p /\
    (forall o, p = Ended o -> o = fst (verify_driver_card k (Some r) c) /\
       alike (fst (at_once k r c n turns)) (snd (verify_driver_card k (Some r) c))) /\
    ((9 <= count_occ Nat.eq_dec turns i)%nat -> exists o, p = Ended o).
Proof.
  intros k r cm us c n turns HK R V A C. apply C130_at_once_partial. eapply consistent_same; eauto.
Qed.
Print Assumptions C130_accepted_partial.

(** Two goroutines that take turns with the toy card of C58_example. *)
Example C130_example : exists us c, Forall dumped_ok us /\ accepted no_charmap us c /\
  consistent toy (toy_resolver toy_root) c /\ hash_bytes toy /\ answers_bytes (toy_resolver toy_root) /\
  dc_has c Gen1 = true /\ (0 < 2)%nat /\ (9 <= count_occ Nat.eq_dec (concat (repeat [0; 1] 9)) 0)%nat.
Proof.
  destruct C58_example as (H1 & H2 & us & c & V & A & C & G). exists us, c.
  split; [exact V|]. split; [exact A|]. split; [exact C|]. split; [exact H1|]. split; [exact H2|]. split; [exact G|]. cbn. lia.
Qed.

(** The card of C58_repeatable_refuted, whose certificate names one authority outside
    and another one inside: the goroutine that looks at the certificate after the
    other one has filled it asks for the wrong authority. *)
Theorem C130_at_once_refuted : exists k r us c turns e, Forall dumped_ok us /\ accepted no_charmap us c /\
  fst (verify_driver_card k (Some r) c) = Ok tt /\ snd (at_once k r c 2 turns) = [Ended (Ok tt); Ended (Err e)].
Proof.
  assert (H : exists c, verified toy source5 [icc_unit; gen1_unit 5 [255; 255; 255; 255]] c /\
    (match fst (verify_driver_card toy (Some source5) c), snd (at_once toy source5 c 2 (repeat 0%nat 9 ++ repeat 1%nat 9)) with
     | Ok _, [Ended (Ok _); Ended (Err _)] => true | _, _ => false end) = true).
  { apply verified_b_ok. vm_compute. reflexivity. }
  destruct H as (c & (V & A & O) & H). exists toy, source5. eexists. exists c, (repeat 0%nat 9 ++ repeat 1%nat 9).
  revert H. generalize (at_once toy source5 c 2 (repeat 0%nat 9 ++ repeat 1%nat 9)) (fst (verify_driver_card toy (Some source5) c)).
  intros [d ps] o. cbn [snd]. intros H.
  destruct o as [[]|?|]; try discriminate H. destruct ps as [|[] [|[] [|]]]; try discriminate H;
    repeat match type of H with context [match ?x with Ok _ => _ | Err _ => _ | Panic => _ end] => destruct x as [[]|?|]; try discriminate H end.
  eexists. split; [exact V|]. split; [exact A|]. split; reflexivity.
Qed.
Print Assumptions C130_at_once_refuted.
